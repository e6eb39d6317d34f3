{"id": "C01", "title": "Canonical packing round-trips", "statement": "Unpacking the result of canonically packing a sequence of byte strings returns exactly that sequence, in order, whatever the blocksize, pad byte and integer width used for packing.", "quantifier": "all finite sequences of byte strings (including empty strings and the empty sequence), all pad bytes, all integer widths 1..255 and all blocksizes whose metadata fits the width", "why_tests_cant": "the number, length and content of the items are unbounded and item bytes may imitate the metadata", "anchors": ["aiootp/generics/canon.py: canonical_pack, canonical_unpack, encode_items, decode_items, fullblock_ljust"]}
{"id": "C02", "title": "Canonical packing is injective", "statement": "Two calls to the canonical packer that produce the same bytes were given the same item sequence, the same blocksize, the same pad byte and the same integer width.", "quantifier": "all pairs of packer calls whose metadata fits the integer width", "why_tests_cant": "a collision would be an isolated pair in an infinite space of pairs", "anchors": ["aiootp/generics/canon.py: canonical_pack, encode_items"]}
{"id": "C03", "title": "Canonical packing is block aligned and minimal", "statement": "The packed output length is a multiple of the blocksize, it is the metadata, lengths and items followed only by pad bytes, and fewer than one blocksize of pad bytes is added.", "quantifier": "all item sequences, blocksizes >= 1, pads and integer widths", "why_tests_cant": "boundary lengths exist for every blocksize", "anchors": ["aiootp/generics/canon.py: canonical_pack, fullblock_ljust"]}
{"id": "C04", "title": "Canonical unpacking never invents data", "statement": "For any byte string, unpacking either raises, or returns items which, packed with the metadata declared in the input, give the input up to whole trailing padding blocks; an input whose declared item count cannot fit in it is rejected before any item is read.", "quantifier": "all byte strings (adversarial input)", "why_tests_cant": "adversarial inputs cannot be enumerated", "anchors": ["aiootp/generics/canon.py: canonical_unpack, decode_items, test_canonical_padding"]}
{"id": "C05", "title": "Canonical unpacking fails only with its documented error", "statement": "For any byte string, the failures of canonical unpacking are the documented CanonicalEncodingError family: no other exception escapes.", "quantifier": "all byte strings (adversarial input)", "why_tests_cant": "the offending inputs are rare: one particular declared blocksize", "anchors": ["aiootp/generics/canon.py: canonical_unpack, test_canonical_padding"]}
{"id": "C06", "title": "Key encoding is injective and block aligned", "statement": "Encoding a non-empty key for hashing gives a whole number of blocks of the given blocksize, an empty key is refused, and two keys with equal encodings for one blocksize are equal.", "quantifier": "all keys, blocksizes and pads", "why_tests_cant": "unbounded keys; collisions are isolated pairs", "anchors": ["aiootp/generics/canon.py: encode_key"]}
{"id": "C07", "title": "Hash inputs are domain separated", "statement": "Two calls of the library's multi-input hash which feed identical bytes to the underlying hash function, under the same key, agree on every item, on the requested size and on the pad.", "quantifier": "all item sequences, sizes, pads, and one fixed (or absent) key", "why_tests_cant": "collisions of the encoding are isolated pairs", "anchors": ["aiootp/generics/hashing.py: hash_bytes", "aiootp/generics/canon.py"]}
{"id": "C08", "title": "Base conversion round-trips", "statement": "Converting a non-negative integer to a text in a given table of distinct symbols and back returns the integer, and the text has no leading zero symbol.", "quantifier": "all non-negative integers and all symbol tables of at least two distinct symbols", "why_tests_cant": "infinitely many integers and tables", "anchors": ["aiootp/generics/transform.py: int_as_base, base_as_int"]}
{"id": "C09", "title": "Filename encoding round-trips", "statement": "Decoding the filename made from a byte string returns that byte string.", "quantifier": "all byte strings", "why_tests_cant": "the failing inputs start with particular bytes, random tests rarely reach them", "anchors": ["aiootp/generics/byte_io.py: bytes_to_filename, filename_to_bytes"]}
{"id": "C10", "title": "URL-safe encoding round-trips and is unambiguous", "statement": "Decoding the URL-safe text of any byte string returns it; the text only uses the letters, digits, '-', '_' and the escaped padding symbol; two byte strings with the same text are equal.", "quantifier": "all byte strings", "why_tests_cant": "infinite domain", "anchors": ["aiootp/generics/byte_io.py: bytes_to_urlsafe, urlsafe_to_bytes"]}
{"id": "C11", "title": "Affine permutation is a bijection with its inverse", "statement": "For every key, permuting an in-range value gives an in-range value, inverting recovers it, permuting after inverting recovers it, distinct values permute to distinct values, and both operations terminate.", "quantifier": "all sizes and successfully built configurations, all keys of the right size, all in-range values", "why_tests_cant": "value spaces up to 2^2048; a non-terminating cycle walk cannot be observed by a test", "anchors": ["aiootp/_permutations/affine_permutation.py: AffinePermutation.permute, invert", "aiootp/_permutations/affine_permutation_config.py"]}
{"id": "C12", "title": "Affine xor chains stay inverse in lock step", "statement": "Two instances made from the same key, stepped and re-incremented by the same history, are inverse to each other at every moment: what one permutes the other inverts, for every in-range value.", "quantifier": "all keys, all histories of permutations and increment updates of any length, all values", "why_tests_cant": "unbounded histories of internal state", "anchors": ["aiootp/_permutations/affine_xor_chain.py: AffineXORChain.permute, invert, step, update_increment", "aiootp/_permutations/fast_affine_xor_chain.py"]}
{"id": "C13", "title": "Latin-square steps of the xor chain", "statement": "For a fixed value the outputs at successive steps are pairwise distinct over a full period of domain-size steps, and for a fixed step count distinct values give distinct outputs; the internal increment is odd and in range after any history of updates.", "quantifier": "all keys, all pairs of step counts within one period, all values, all update histories", "why_tests_cant": "periods of 2^8 up to 2^2048 steps", "anchors": ["aiootp/_permutations/affine_xor_chain.py: step, update_increment, permute"]}
{"id": "C14", "title": "Permutation keys and increments are validated", "statement": "A key whose length is not exactly the configured one is refused, and so is an increment update outside the open range between zero and the domain size, leaving the state unchanged.", "quantifier": "all byte strings as keys, all integers as updates, all states", "why_tests_cant": "infinite inputs", "anchors": ["aiootp/_permutations/affine_xor_chain.py: _ingest_key, update_increment", "aiootp/_permutations/affine_permutation.py: _process_additive_key"]}
{"id": "C15", "title": "Sequence IDs are reversible and unique", "statement": "Reading the ID made from an in-range sequence number returns the number, IDs have exactly the configured size, distinct numbers have distinct IDs.", "quantifier": "all configurations, keys and in-range numbers", "why_tests_cant": "domains up to 2^256", "anchors": ["aiootp/randoms/ids/sequence_id.py: SequenceID.new, read"]}
{"id": "C16", "title": "Raw GUIDs are laid out losslessly and unique per tick", "statement": "A raw GUID is the timestamp, token, node and tick fields in fixed positions, parsing it returns the fields it was built from; within one instance any 256 successive GUIDs are pairwise distinct even if the clock stands still or goes backwards and the random token repeats; GUIDs of two different nodes are distinct; an instance whose clock never goes backwards and never shows one reading to more than 256 calls never repeats a GUID.", "quantifier": "all configurations, all clock readings, all random outcomes, all histories of calls", "why_tests_cant": "clock and randomness schedules cannot be enumerated", "anchors": ["aiootp/randoms/ids/raw_guid.py: RawGUID.new, _incremented_tick", "aiootp/randoms/ids/raw_guid_config.py: RawGUIDContainer"]}
{"id": "C17", "title": "GUIDs are reversible and preserve uniqueness", "statement": "Reading a GUID returns the raw GUID it was made from, wrong-length input is refused, and under one key GUIDs collide only if the raw GUIDs do.", "quantifier": "all keys, configurations, raw GUIDs and histories", "why_tests_cant": "as above", "anchors": ["aiootp/randoms/ids/guid.py: GUID.new, read"]}
{"id": "C18", "title": "Sort order of raw GUID containers", "statement": "Sorting parsed raw GUIDs orders them by timestamp first, then node, then tick, then token, and equal sort keys mean equal GUIDs.", "quantifier": "all pairs of GUIDs of one configuration", "why_tests_cant": "all pairs of byte strings", "anchors": ["aiootp/randoms/ids/raw_guid_config.py: RawGUIDContainer.sort_key"]}
{"id": "C19", "title": "Plaintext padding round-trips", "statement": "Removing the padding from a padded plaintext returns the plaintext, and the padded length is a positive multiple of the padding frame.", "quantifier": "all plaintexts, timestamps, random padding and all padding configurations", "why_tests_cant": "lengths at the frame boundary matter and random padding bytes may imitate the sentinel", "anchors": ["aiootp/ciphers/padding.py: Padding.pad_plaintext, depad_plaintext, end_padding, start_padding, depadding_end_index"]}
{"id": "C20", "title": "Timestamps and time-to-live", "statement": "Reading a timestamp made at a given time returns that time in the clock's unit; a time-to-live check accepts exactly when the age does not exceed the limit, reports by how much it was exceeded otherwise, and accepts everything when no limit is given; the clock is monotone and shows the number of whole units since its epoch.", "quantifier": "all times, epochs, units, widths and limits", "why_tests_cant": "clock values are unbounded", "anchors": ["aiootp/asynchs/clocks.py: Clock.make_timestamp, read, delta, test_timestamp"]}
{"id": "C21", "title": "One-shot encryption round-trips (Slick256)", "statement": "Decrypting an encrypted byte string with the same key and associated data returns it (if the time-to-live has not passed).", "quantifier": "all plaintexts, keys, salts, IVs, associated data, random choices, timestamps, and any behaviour of the hash function", "why_tests_cant": "all lengths, all keys, all hash behaviours", "anchors": ["aiootp/ciphers/cipher_interface.py: bytes_encrypt, bytes_decrypt", "aiootp/ciphers/shake_permute_cipher.py", "aiootp/ciphers/slick_256.py"]}
{"id": "C22", "title": "One-shot encryption round-trips (Chunky2048)", "statement": "Decrypting an encrypted byte string with the same key and associated data returns it (if the time-to-live has not passed).", "quantifier": "all plaintexts, keys, salts, IVs, associated data, random choices, timestamps, and any behaviour of the hash function", "why_tests_cant": "all lengths, all keys, all hash behaviours", "anchors": ["aiootp/ciphers/cipher_interface.py: bytes_encrypt, bytes_decrypt", "aiootp/ciphers/dual_output_shake_cipher.py", "aiootp/ciphers/chunky_2048.py"]}
{"id": "C23", "title": "Ciphertext layout and size", "statement": "A ciphertext is the authentication tag, salt, IV and a body whose length is the smallest whole number of padding frames that holds the inner header and plaintext plus at least one byte; input that is not header plus a positive whole number of blocks is refused before any cryptographic work.", "quantifier": "all plaintext lengths, all byte strings as ciphertext, both ciphers", "why_tests_cant": "all lengths", "anchors": ["aiootp/ciphers/ciphertext_formatting.py", "aiootp/ciphers/cipher_interface.py", "aiootp/ciphers/padding.py"]}
{"id": "C24", "title": "No plaintext without a valid authentication tag", "statement": "One-shot decryption returns a plaintext only if the tag in the ciphertext equals the tag that the encrypting side computes over the key, salt, associated data, IV and the whole ciphertext body; otherwise it raises.", "quantifier": "all keys, associated data, ciphertexts and hash behaviours, both ciphers", "why_tests_cant": "forgeries cannot be enumerated", "anchors": ["aiootp/ciphers/cipher_interface.py: bytes_decrypt", "aiootp/ciphers/stream_hmac.py: test_shmac, finalize"]}
{"id": "C25", "title": "The authentication tag binds every input", "statement": "For one configuration the bytes absorbed by the hash function before the tag is squeezed determine the key, the salt, the associated data, the IV, and every ciphertext block in order: two sessions with different data never feed the same bytes.", "quantifier": "all pairs of sessions of one cipher", "why_tests_cant": "an ambiguity is an isolated pair of sessions", "anchors": ["aiootp/ciphers/stream_hmac.py", "aiootp/ciphers/cipher_kdfs.py", "aiootp/ciphers/key_bundle.py"]}
{"id": "C26", "title": "JSON and token encryption round-trip", "statement": "The JSON and URL-safe token variants recover the value that was encrypted.", "quantifier": "all JSON values the serialiser round-trips, all byte tokens, keys, salts and associated data", "why_tests_cant": "infinite inputs", "anchors": ["aiootp/ciphers/cipher_interface.py: json_encrypt, json_decrypt, make_token, read_token"]}
{"id": "C27", "title": "Online encryption is independent of chunking", "statement": "However the plaintext is cut into pieces for the online cipher, and however reading and writing are interleaved, the ciphertext blocks and final tag are those of one-shot encryption with the same randomness.", "quantifier": "all plaintexts, all ways to cut them, all interleavings of buffering and draining", "why_tests_cant": "exponentially many cuts and interleavings", "anchors": ["aiootp/ciphers/cipher_streams.py: CipherStream.buffer, finalize, __iter__"]}
{"id": "C28", "title": "Online decryption recovers the stream", "statement": "Feeding the packets of an online encryption to the online decipher in any grouping of whole packets, in order, and finalizing yields exactly the plaintext, and the tag check succeeds.", "quantifier": "all streams, all groupings, all drain points", "why_tests_cant": "exponentially many groupings", "anchors": ["aiootp/ciphers/decipher_streams.py: DecipherStream.buffer, finalize, __iter__"]}
{"id": "C29", "title": "A rejected packet does not disturb an online decryption", "statement": "When a packet with an invalid block ID is offered to the online decipher, it is refused with an error, nothing of it is released, and the stream continues exactly as if it had never been offered.", "quantifier": "all stream histories, all forged packets", "why_tests_cant": "all histories", "anchors": ["aiootp/ciphers/decipher_streams.py: buffer, _digest_data", "aiootp/ciphers/stream_hmac.py: test_next_block_id"]}
{"id": "C30", "title": "The time-to-live of an online decryption is enforced before plaintext is released", "statement": "An online decipher created with a time-to-live releases no plaintext of an expired stream, whatever calls were made before.", "quantifier": "all call histories", "why_tests_cant": "depends on an unusual order of calls", "anchors": ["aiootp/ciphers/decipher_streams.py: _test_timestamp, __iter__, finalize"]}
{"id": "C31", "title": "Authenticators are single use", "statement": "An authenticator accepts exactly one mode, one registration and one finalization; it gives no result before finalization and accepts no data afterwards; failed calls leave it unchanged.", "quantifier": "all sequences of method calls", "why_tests_cant": "all call sequences", "anchors": ["aiootp/ciphers/stream_hmac.py: StreamHMAC"]}
{"id": "C32", "title": "Key bundles are single use and encryption always draws a fresh IV", "statement": "A key bundle can be registered with one authenticator only, for one mode; an encryption session never runs under a caller-chosen IV (outside testing mode) and a decryption session never runs without one.", "quantifier": "all call sequences, all arguments", "why_tests_cant": "all call sequences", "anchors": ["aiootp/ciphers/key_bundle.py", "aiootp/ciphers/stream_junction.py"]}
{"id": "C33", "title": "Block IDs detect any change", "statement": "The inputs hashed for a block ID determine the whole past of the stream and the candidate block, computing a block ID does not change the authenticator, and ID sizes outside the allowed range are refused.", "quantifier": "all histories, blocks and sizes", "why_tests_cant": "all histories", "anchors": ["aiootp/ciphers/stream_hmac.py: next_block_id, test_next_block_id"]}
{"id": "C34", "title": "Exclusive guards give mutual exclusion", "statement": "While an exclusive guard is inside its critical section no other guard on the same deques is inside, and shared (non-exclusive) guards may only be inside together with shared guards.", "quantifier": "any number of threads, all interleavings of the guards' atomic steps, all mixes of policies", "why_tests_cant": "interleavings cannot be enumerated", "anchors": ["aiootp/asynchs/guards/concurrency_guard.py: ConcurrencyGuard", "aiootp/asynchs/guards/policies.py"]}
{"id": "C35", "title": "Guards are served first come first served", "statement": "Guards join the queue once and leave it in the order they joined; whenever at least one of two guards is exclusive, the one that joined first has left its block (or was refused) before the other one enters. (Two shared guards may run together and in either order.)", "quantifier": "all interleavings", "why_tests_cant": "interleavings cannot be enumerated", "anchors": ["aiootp/asynchs/guards/policies.py: get_in_queue, is_free_to_run"]}
{"id": "C36", "title": "Guards never deadlock or fault in correct use", "statement": "If every guard inside eventually leaves, some waiting guard can always proceed; no incoherence error or internal exception ever arises; after all have left, queue and observers are empty.", "quantifier": "all interleavings with blocks that exit normally or by exception", "why_tests_cant": "interleavings cannot be enumerated", "anchors": ["aiootp/asynchs/guards/*.py"]}
{"id": "C37", "title": "Cancelling a waiting guard does not block the others", "statement": "If a task is cancelled while waiting to enter its guard, other guards still get to run.", "quantifier": "all interleavings and cancellation points", "why_tests_cant": "cancellation points cannot be enumerated", "anchors": ["aiootp/asynchs/guards/concurrency_guard.py: __aenter__", "aiootp/asynchs/guards/manager.py"]}
{"id": "C38", "title": "A guard object is used at most once", "statement": "A guard passes through unused, pending, running, done in this order; any use out of order is refused and leaves the guard permanently faulted.", "quantifier": "all sequences of state transitions", "why_tests_cant": "all sequences", "anchors": ["aiootp/asynchs/guards/state_machine.py"]}
{"id": "C39", "title": "Per-target guard bookkeeping", "statement": "The multi-target guard keeps one shared pair of deques per target exactly while it is in use, so that guards on one target always share deques, and forgets the target afterwards.", "quantifier": "any number of threads and targets, all interleavings", "why_tests_cant": "interleavings cannot be enumerated", "anchors": ["aiootp/asynchs/guards/manager.py: MultiConcurrencyGaurd"]}
{"id": "C40", "title": "The database session behaves as a map", "statement": "Within a session, after any sequence of operations, querying a tag returns the last value set for it, or nothing if it was removed; other tags are unaffected; contents, length and tag listing agree.", "quantifier": "all operation sequences, all tags and values", "why_tests_cant": "all sequences", "anchors": ["aiootp/databases/sync_database.py", "aiootp/databases/database_properties.py"]}
{"id": "C41", "title": "Saving a database makes it durable", "statement": "After saving, opening the database again with the same key returns for every tag the saved value, and unsaved later changes are not visible.", "quantifier": "all operation sequences before and after the save", "why_tests_cant": "all sequences", "anchors": ["aiootp/databases/sync_database.py: save_database, load_database, _load_manifest"]}
{"id": "C42", "title": "Rolling back and clearing the cache", "statement": "Rolling a tag back discards exactly its unsaved change; clearing the cache discards exactly the unsaved changes; neither alters the stored files.", "quantifier": "all histories", "why_tests_cant": "all histories", "anchors": ["aiootp/databases/sync_database.py: rollback_tag, clear_cache"]}
{"id": "C43", "title": "A crash during saving loses no committed value of other tags", "statement": "If the process stops between any two file operations of a save, reopening succeeds and every tag that was durable before still has its old or its new value.", "quantifier": "all histories, all crash points between file operations", "why_tests_cant": "crash points cannot be enumerated", "anchors": ["aiootp/databases/sync_database.py: save_database, _save_manifest, _save_tags"]}
{"id": "C44", "title": "Reloading a database discards unsaved changes", "statement": "As documented, reloading a database from disk discards unsaved changes.", "quantifier": "all histories", "why_tests_cant": "all histories", "anchors": ["aiootp/databases/sync_database.py: load_database"]}
{"id": "C45", "title": "Saving a single tag is enough to find it again", "statement": "After saving one tag, a fresh instance opened with the same key returns its value.", "quantifier": "all histories", "why_tests_cant": "all histories", "anchors": ["aiootp/databases/sync_database.py: save_tag, set_tag"]}
{"id": "C46", "title": "Metatag databases are isolated from their parent", "statement": "Operations on a metatag's child database never alter the parent's tags and vice versa, and deleting a metatag removes it from the listing.", "quantifier": "all operation sequences on parent and child", "why_tests_cant": "all sequences", "anchors": ["aiootp/databases/sync_database.py: metatag, delete_metatag, _metatag_key"]}
{"id": "C47", "title": "Domain KDF outputs are separated", "statement": "The bytes fed to the hash function determine the domain, the whole sequence of payload updates, the associated data, the inputs and the requested size, for one key length; copies are independent of their original.", "quantifier": "all call sequences and inputs", "why_tests_cant": "isolated colliding pairs", "anchors": ["aiootp/keygens/domain_kdf.py"]}
{"id": "C48", "title": "Passcrypt hash strings round-trip", "statement": "Importing an exported password hash returns its settings, every byte string that is accepted re-exports to itself, and settings outside the documented limits are refused.", "quantifier": "all settings and all byte strings", "why_tests_cant": "adversarial input cannot be enumerated", "anchors": ["aiootp/keygens/passcrypt/hash_format.py: PasscryptHash.import_hash, export_hash"]}
{"id": "C49", "title": "Verification cost is bounded before work starts", "statement": "Verifying a passphrase starts the memory-hard computation only if every difficulty setting read from the untrusted hash lies in the caller's allowed ranges and it has not expired.", "quantifier": "all hash strings, ranges and times", "why_tests_cant": "adversarial input cannot be enumerated", "anchors": ["aiootp/keygens/passcrypt/interface.py: verify", "aiootp/keygens/passcrypt/hash_format.py: in_allowed_ranges"]}
{"id": "C50", "title": "Passphrase verification accepts exactly matching passphrases", "statement": "Verifying succeeds if the same passphrase, pepper and associated data were used, and, conversely, only if the recomputed tag equals the stored one.", "quantifier": "all passphrases, settings and hash behaviours", "why_tests_cant": "infinite inputs", "anchors": ["aiootp/keygens/passcrypt/interface.py: hash_passphrase, verify"]}
{"id": "C51", "title": "Passcrypt memory accesses stay in the allocated memory", "statement": "Throughout the memory-hard proof, every read and write is inside the allocated memory, whose size never changes and is at least the requested cost.", "quantifier": "all settings within the documented limits and any hash behaviour", "why_tests_cant": "the settings space is about 2^40 and each run is expensive", "anchors": ["aiootp/keygens/passcrypt/sessions_manager.py: _work_memory_prover", "aiootp/keygens/passcrypt/session_init.py: prepare_session, allocate_ram"]}
{"id": "C52", "title": "Key exchanges agree", "statement": "The two sides of 2DH and 3DH exchanges derive the same shared keys, and the key derivation input determines all public keys of the session in their roles.", "quantifier": "all key pairs", "why_tests_cant": "infinite inputs", "anchors": ["aiootp/keygens/curve_25519/double_diffie_hellman_client.py", "aiootp/keygens/curve_25519/triple_diffie_hellman_client.py", "and the servers"]}
{"id": "C53", "title": "Curve key objects are set once", "statement": "A key object's keys are never replaced once imported or generated; every attempt is refused and leaves the object unchanged.", "quantifier": "all sequences of calls", "why_tests_cant": "all sequences", "anchors": ["aiootp/keygens/curve_25519/shared_interface.py: Base25519"]}
{"id": "C54", "title": "Mnemonics are words of the list", "statement": "A mnemonic has exactly the requested number of words, all from the word list, and is a deterministic function of its inputs.", "quantifier": "all sizes, lists, inputs and hash behaviours", "why_tests_cant": "infinite inputs", "anchors": ["aiootp/keygens/mnemonics.py"]}
{"id": "C55", "title": "Package signing and verification agree", "statement": "A summary produced by a signer verifies with the signer's public key, and verification succeeds only if the key, every file's checksum, the summary checksum and the signature match.", "quantifier": "all packages and all summaries", "why_tests_cant": "adversarial summaries cannot be enumerated", "anchors": ["aiootp/keygens/package_signer.py", "aiootp/keygens/package_verifier.py"]}
{"id": "C56", "title": "Salt files", "statement": "A salt file always holds at least the minimum salt size, reading returns what was last written, and outside an operation its permissions are closed.", "quantifier": "all sequences of operations", "why_tests_cant": "all sequences", "anchors": ["aiootp/_paths.py: make_salt_file, read_salt_file, update_salt_file, delete_salt_file"]}
{"id": "C57", "title": "Concurrent creation of a salt path yields one salt", "statement": "When several threads open the same secure salt path for the first time, all obtain the same salt.", "quantifier": "all interleavings", "why_tests_cant": "interleavings cannot be enumerated", "anchors": ["aiootp/_paths.py: SecureSaltPath"]}
{"id": "C58", "title": "Frozen containers are immutable", "statement": "Once an attribute of a frozen container is set, no sequence of its public operations changes or removes it.", "quantifier": "all operation sequences", "why_tests_cant": "all sequences", "anchors": ["aiootp/commons/slots.py: FrozenSlots", "aiootp/commons/instances.py: FrozenInstance", "aiootp/commons/namespaces.py: FrozenNamespace", "aiootp/commons/typed_slots.py"]}
{"id": "C59", "title": "Configuration registries never rebind", "statement": "A registered configuration is never replaced by a different object, and only values of the configured type are registered.", "quantifier": "all operation sequences", "why_tests_cant": "all sequences", "anchors": ["aiootp/commons/configs.py: ConfigMap"]}
{"id": "C60", "title": "Batching and resizing preserve the data", "statement": "Re-chunking a stream of byte strings preserves its concatenation, and every chunk but the last has exactly the requested size.", "quantifier": "all streams and sizes", "why_tests_cant": "all cuts", "anchors": ["aiootp/_gentools.py: batch, resize, popleft"]}
{"id": "C61", "title": "Canonical tokens do not mix their fields", "statement": "The token made from the process-unique counters and random values keeps each field in its own bits, so tokens differing in a field differ.", "quantifier": "all field values in range", "why_tests_cant": "infinite inputs", "anchors": ["aiootp/randoms/simple.py: canonical_token"]}
{"id": "C62", "title": "Passcrypt memory accesses are independent of secrets", "statement": "The sequence of memory accesses of the memory-hard proof is the same for all passphrases, salts, peppers and associated data: it is a function of the memory and cpu settings only.", "quantifier": "all inputs, settings and hash behaviours", "why_tests_cant": "a relation between all pairs of runs", "anchors": ["aiootp/keygens/passcrypt/sessions_manager.py: _work_memory_prover", "aiootp/keygens/passcrypt/session_init.py: allocate_ram"]}
{"id": "C63", "title": "Passcrypt overwrites its whole memory", "statement": "Between filling the memory and the final scans, the memory-hard proof overwrites every 168-byte cell of the memory exactly once.", "quantifier": "all settings within the documented limits", "why_tests_cant": "the settings space is about 2^40 and each run is expensive", "anchors": ["aiootp/keygens/passcrypt/sessions_manager.py: _work_memory_prover"]}
{"id": "C64", "title": "Key exchange objects are used for one exchange", "statement": "A 2DH or 3DH client or server object returns at most one key derivation object, combines its secret keys only with the public keys of one session, and never changes a key of that session once it is known.", "quantifier": "all histories of synchronous calls, interleaved coroutines, failed attempts and calls on the identity key", "why_tests_cant": "all interleavings and histories", "anchors": ["aiootp/keygens/curve_25519/double_diffie_hellman_client.py", "aiootp/keygens/curve_25519/double_diffie_hellman_server.py", "aiootp/keygens/curve_25519/triple_diffie_hellman_client.py", "aiootp/keygens/curve_25519/triple_diffie_hellman_server.py"]}
{"id": "C65", "title": "Signatures made by a key object verify with its public key only as documented", "statement": "A signature made by a signing object is accepted by every object holding its public key and by any object that is given that key explicitly; verification returns only if the signature is valid for the key given, or for the object's own key if none is given.", "quantifier": "all keys, messages, signatures and histories of key objects", "why_tests_cant": "infinite inputs", "anchors": ["aiootp/keygens/curve_25519/ed25519.py: sign, verify"]}
{"id": "C66", "title": "Keyed choices are as uniform as their indexes", "statement": "Every element of a collection is chosen by the same number of 16-byte blocks, up to one; each word of the mnemonic word list is chosen by exactly 2^117 of them.", "quantifier": "all collections and positions", "why_tests_cant": "counts 2^128 blocks", "anchors": ["aiootp/keygens/mnemonics.py: keyed_choices"]}
{"id": "C67", "title": "Phrase encoding round trip", "statement": "Encoding bytes as a phrase of words and decoding it, with any surrounding whitespace, returns the bytes; a phrase that decodes is the encoding of the result; everything else is refused.", "quantifier": "all byte strings and all phrases", "why_tests_cant": "infinite inputs", "anchors": ["aiootp/generics/byte_io.py: _bytes_to_phrase, _phrase_to_bytes", "aiootp/_constants/datasets.py: _WORD_LIST_256"]}
{"id": "C68", "title": "Typed slots only hold values of their type", "statement": "Whatever sequence of assignments, updates, deletions and clears is made, a slot with a declared type never holds a value of another type; assigning one raises TypeError and changes nothing.", "quantifier": "all typed classes, all operation sequences", "why_tests_cant": "all sequences and all classes", "anchors": ["aiootp/commons/typed_slots.py: TypedSlots"]}
{"id": "C69", "title": "Iterating a container lists its contents", "statement": "Iterating a slots container lists exactly the mapped attributes and items that can be read from it, each exactly once, and its length is their number.", "quantifier": "all classes, all operation sequences", "why_tests_cant": "all sequences and all classes", "anchors": ["aiootp/commons/slots.py: Slots.__iter__, keys, __len__, __contains__"]}
{"id": "C70", "title": "The entropy pool is never read twice on one input", "statement": "However threads interleave their calls to the random generators that share one hashing object, no two outputs are the hash of the same input, and every call ends after a fixed number of its own steps without waiting for another thread.", "quantifier": "all schedules of all calls of all threads, all seeds and pool contents", "why_tests_cant": "ranges over all interleavings of unboundedly many calls", "anchors": ["aiootp/randoms/rng.py: csprng, acsprng", "aiootp/randoms/threading_safe_entropy_pool.py: ThreadingSafeEntropyPool"]}
{"id": "C71", "title": "Salted multiplications give numbers of 256 bits", "statement": "Whatever numbers are multiplied and whatever other tasks did before or meanwhile, the result of a salted multiplication fits in 32 bytes, so that turning it into bytes never fails, and the global offset is never zero.", "quantifier": "all integers, histories and interleavings", "why_tests_cant": "all histories of global state", "anchors": ["aiootp/randoms/_early_salts.py: _salt_multiply, _asalt_multiply", "aiootp/randoms/rng.py: arandom_number_generator"]}
{"id": "C72", "title": "The entropy daemon's delay is positive and temporary delays end", "statement": "The maximum delay between two iterations of the entropy daemon is always positive; a temporary delay is replaced by the lasting one as soon as the daemon looks at the clock after its deadline, and is never slept over by more than a second.", "quantifier": "all sequences of settings and clock readings", "why_tests_cant": "all sequences of settings and times", "anchors": ["aiootp/randoms/entropy_daemon.py: EntropyDaemon.set_max_delay, set_temporary_max_delay"]}
{"id": "C73", "title": "Generating random numbers renews the pool", "statement": "After a call of the random number generator with a freshness of at least three, the entropy pool holds none of the values it held before, whatever other threads add meanwhile.", "quantifier": "all pools, all freshness values, all interleaved additions", "why_tests_cant": "all interleavings", "anchors": ["aiootp/randoms/rng.py: arandom_number_generator, _pool"]}
{"id": "C74", "title": "Names of salt files are deniable", "statement": "The name of a deniable file is made exactly for sizes 1 to 16 and keys of at least twice the size. It depends on the key only through the XOR of its pieces of that size, so that for every other beginning and end there is exactly one middle block which gives the same name.", "quantifier": "all keys, sizes, prefixes and suffixes", "why_tests_cant": "ranges over all keys and all forged keys", "anchors": ["aiootp/generics/transform.py: xi_mix", "aiootp/_paths.py: deniable_filename"]}
{"id": "C75", "title": "Generated file names are safe and short", "statement": "A file name made from bytes is not empty, uses only lower case letters, digits, minus and underscore, so it is never a path or a special name, and names of hashed keys have at most 37 characters. Two files share their guards only if their paths are equal or two explicit hash inputs collide.", "quantifier": "all byte strings, all paths", "why_tests_cant": "all inputs; an unsafe name may come from one rare value", "anchors": ["aiootp/generics/byte_io.py: ByteIO.bytes_to_filename", "aiootp/_paths.py: filename_to_index_key"]}
{"id": "C76", "title": "Domain constants are distinct", "statement": "Every domain constant of the package can be made, has its declared size, and two constants with different names (or made from different text, size, domain, additional data or padding) are digests of different hash inputs, so equal constants are an explicit collision; constants users encode never coincide with the package's unless everything they are made from is equal.", "quantifier": "all constants of the package, all texts, sizes, domains and additional data of users, all hash functions of the SHAKE kind", "why_tests_cant": "a test compares finitely many digests under one hash function; separation from every user constant quantifies over all byte strings", "anchors": ["aiootp/generics/domains.py: Domains, encode_constant", "aiootp/_constants/misc.py", "aiootp/databases/dbdomains.py: DBDomains"]}
{"id": "C77", "title": "A cipher configuration is bound by its fingerprint", "statement": "A cipher configuration that the constructor accepts makes a cipher whose messages round-trip; both shipped configurations are accepted; two configurations that differ in a setting give their keys from different hash inputs. False for the time unit: two configurations that differ only in it accept each other's ciphertexts and read their ages in the wrong unit.", "quantifier": "all settings the constructor accepts, all keys and messages", "why_tests_cant": "all configurations and all pairs of them", "anchors": ["aiootp/ciphers/shake_permute_cipher_config.py: ShakePermuteCipherConfig", "aiootp/ciphers/dual_output_shake_cipher_config.py: DualOutputShakeCipherConfig", "aiootp/ciphers/cipher_kdfs.py", "aiootp/ciphers/slick_256_config.py", "aiootp/ciphers/chunky_2048_config.py"]}
{"id": "C78", "title": "Derived multipliers are suitable and invertible", "statement": "The multiplier that a permutation configuration derives for a size and additional data is the first candidate that is odd, has half the modulus's bits and about the expected number of bit changes; the search ends at the first such candidate; different candidates are digests of different inputs; the moduli of all sizes up to 32 bytes are prime, so every derived multiplier has an inverse and the permutation can be made.", "quantifier": "all sizes with a registered modulus (primality: sizes 1 to 32), all additional data, all hash functions of the SHAKE kind", "why_tests_cant": "all additional data and all digests; primality of 257-bit numbers is not settled by running the code, and a probabilistic test is not a proof", "anchors": ["aiootp/_permutations/affine_permutation_config.py: AffinePermutationConfig._derive_new_multiplier, is_likely_safe_multiplier", "aiootp/_constants/datasets.py: PRIMES"]}
{"id": "C79", "title": "A database writes only ciphertexts, each with fresh random values, and only to its own files", "statement": "Opening a database writes nothing. Whatever operations follow, every write is the encryption, under the database's key, of a tag's file or of the manifest; no two writes use the same random values; and files that are not the manifest or a tag's file of this database keep their contents.", "quantifier": "all operation sequences, all contents of the directory, all serialisers and ciphers", "why_tests_cant": "all histories; a reused salt or IV, or one write in the clear, is invisible in round-trip tests", "anchors": ["aiootp/databases/sync_database.py: _save_file, _close_manifest, save_database, set_tag", "aiootp/databases/async_database.py"]}
{"id": "C80", "title": "JSON data comes back as it was given", "statement": "Any JSON value (dicts with string keys, lists, strings without surrogate pairs, integers, floats, booleans, None) given to a cipher's json_encrypt comes back equal from json_decrypt; a value that came from JSON once never changes again by being written and read, two values are never written as the same text, and JSON data is never mistaken for the byte strings a database stores.", "quantifier": "all JSON values of any nesting and size, all byte strings that parse, all valid cipher configurations, keys, random draws and times", "why_tests_cant": "The values are unboundedly nested and contain arbitrary characters, escapes, numbers and empty containers; tests try a few.", "anchors": ["aiootp/ciphers/cipher_interface.py:json_encrypt,json_decrypt", "aiootp/databases/sync_database.py:_save_file,query_tag,_open_manifest"]}
{"id": "C81", "title": "What a database writes for one file is opened for that file and no other", "statement": "With the package's own ciphers, key derivation, file names and JSON a database behaves as a map over every session and every life; bytes, JSON values and tokens encrypted for a file name and associated data come back with the same, unless older than a given limit; and no ciphertext, token or manifest is accepted with another database key, root salt, file name or associated data, nor do two tags, two databases or a tag and the manifest share a file, nor two metatags a key, unless two explicitly given hash inputs collide.", "quantifier": "all hash functions, database keys of at least 64 bytes, root salts, tags, file names, associated data, values, random draws, times, sessions and lives", "why_tests_cant": "Tests use a few tags and keys; that every combination is separated depends on the canonical encoding of all derivation inputs.", "anchors": ["aiootp/databases/sync_database.py: SyncDatabase.filename, bytes_encrypt, json_encrypt, make_token, bytes_decrypt, json_decrypt, read_token, _open_manifest, _encrypt_manifest, _metatag_key", "aiootp/databases/database_properties.py: _root_filename", "aiootp/databases/dbkdf.py: DBKDF", "aiootp/databases/dbdomains.py: DBDomains"]}
{"id": "C82", "title": "A profile is opened again by the same credentials and by no others", "statement": "Generating a profile succeeds for settings in the documented limits and any non-empty passphrase and adds only the salt files that are missing; the same credentials give the same tokens, and open the same database without writing, however many other profiles have been generated or deleted in the directory meanwhile; two generations, in one directory or two, have the same login key only with the same credentials, username, passphrase, salt, associated data, costs, device salt and profile salt, unless two given inputs of the hash functions collide; the new profile behaves as a map over its whole life and keeps only the path of its salt; deleting it deletes its salt and no other, after which the same credentials get a new salt.", "quantifier": "all credentials, settings, directories of salts, histories of other generations and deletions, sessions and lives of the database", "why_tests_cant": "Tests generate a few profiles in one directory with one machine's salts; they cannot show that no other passphrase, directory or history leads to the same key, nor that every history of other profiles leaves this one reachable.", "anchors": ["aiootp/databases/profile_tokens.py: ProfileTokens.generate, cleanup, _summon_device_salt, _summon_profile_salt, _generate_profile_login_key", "aiootp/databases/sync_database.py: Database.generate_profile, _delete_profile_tokens", "aiootp/_paths.py: SecureSaltPath, read_salt_file, delete_salt_file"]}
{"id": "C83", "title": "Functions run in a thread or process of their own give their results to the caller", "statement": "Threads.new, Threads.anew, Processes.new and Processes.anew return what the given function returns. (Exceptions of the function, values that do not fit into a pipe and values that cannot be pickled do not get there.)", "quantifier": "every value, every outcome of the function, every interleaving of the caller's probes with the steps of the child, every capacity of the pipe", "why_tests_cant": "Whether the caller sees the value, an empty queue or waits for ever depends on the schedule and on the size of the value against the operating system's pipe; tests run a few schedules with small values.", "anchors": ["aiootp/asynchs/concurrency_interface.py: _arun_func, _run_func, anew, new", "aiootp/asynchs/processes.py: _get_queue", "aiootp/asynchs/threads.py: _get_queue"]}
{"id": "C84", "title": "Gathering functions in a pool is like running them in order", "statement": "Threads.gather and Processes.gather (and agather) return the results of all functions in the order they were given, or raise the exception of the first in that order that raises, whichever ends first; no function is run twice, not more are run at a time than there are workers, and once the call has ended none of its functions is handed to a worker. The call can always end.", "quantifier": "every list of functions, every number of workers, every order in which workers take work and functions end, every use of the pool by others", "why_tests_cant": "The order in which functions end and the submissions of others are not under the control of a test.", "anchors": ["aiootp/asynchs/concurrency_interface.py: submit, asubmit, _package_result_methods, gather, agather"]}
{"id": "C85", "title": "Tasks that use one asynchronous database do not disturb each other", "statement": "Operations of several tasks on one AsyncDatabase have the replies and leave the values of some order of the operations: a value that was set is not lost, a tag that is popped is given to one task, a query finds one of the values the tag has had. Tasks on different tags do not notice each other at all.", "quantifier": "every set of operations of tasks, every order in which their steps are mixed", "why_tests_cant": "The event loop and the file threads choose the order of steps; a test sees few of the orders.", "anchors": ["aiootp/databases/async_database.py: aset_tag, aquery_tag, asave_tag, apop_tag, arollback_tag, _asave_file", "aiootp/generics/byte_io.py: aread, awrite"]}
{"id": "C86", "title": "Tasks that share one cipher stream make one message", "statement": "Several tasks feed one AsyncCipherStream and another iterates over it and finalizes it. Whatever the order in which they run, the packets and the tag are the ciphertext of what the calls fed that returned, in the order of the calls. A call returns or is refused because the stream is being finalized, and then fed nothing. The tasks cannot block each other for ever. This holds also if a task is cancelled, or if several tasks iterate.", "quantifier": "every number of tasks and data they feed, every order in which their steps are mixed, every configuration, key and associated data", "why_tests_cant": "The event loop chooses the order of steps; a test sees few of the orders, and a lost or misplaced block shows only in the tag.", "anchors": ["aiootp/ciphers/cipher_streams.py: AsyncCipherStream.abuffer, _adigest_data, __aiter__, afinalize", "aiootp/asynchs/guards/concurrency_guard.py: ConcurrencyGuard"]}
{"id": "C87", "title": "Tasks that share one decipher stream see one stream", "statement": "Several tasks feed packets, genuine or not, to one AsyncDecipherStream, and another iterates over it and finalizes it. Whatever the order in which they run, the answers are those of the same calls made one after another: each packet is taken in or refused by its ID alone, a refused one changes nothing for the others, what is released is a prefix of what the sender fed and in the end all of it, and then exactly the sender's tag is accepted. Plaintext older than the limit is not released. The tasks cannot block each other for ever. This holds also if a task is cancelled, or if several tasks iterate.", "quantifier": "every number of tasks and data they feed, every order in which their steps are mixed, every moment, configuration, key and associated data", "why_tests_cant": "The event loop chooses the order of steps; a test sees few of the orders, and the age check is skipped only if a task runs at one particular moment.", "anchors": ["aiootp/ciphers/decipher_streams.py: AsyncDecipherStream.abuffer, _adigest_data, __aiter__, _atest_timestamp, _aremove_inner_header, afinalize", "aiootp/asynchs/guards/concurrency_guard.py: ConcurrencyGuard"]}
{"id": "C88", "title": "A database saved while tasks use it is saved whole", "statement": "One task awaits asave_database of an AsyncDatabase while others set, query and pop tags. Whatever the order in which they run, the save does not raise, and when it returns a process that opens the database finds every tag that was set before the save began, and not popped, with a value that tag had during the save; tags that were popped are not found. This holds also if two tasks save the database at the same time.", "quantifier": "every number of tasks, tags and values, every initial database, every order in which the steps of the tasks are mixed", "why_tests_cant": "The event loop and the threads that do file operations choose the order of steps; a test sees few of the orders.", "anchors": ["aiootp/databases/async_database.py: AsyncDatabase.asave_database, _aclose_manifest, _aencrypt_manifest, _asave_manifest, _asave_tags, _asave_file, aset_tag, aquery_tag, apop_tag"]}
{"id": "C89", "title": "Tasks that share sub-databases see one sub-database for a name", "statement": "Tasks of one event loop open, save and delete sub-databases (metatags) of one AsyncDatabase. Whatever the order in which they run, the parent lists every name at most once and lists the names for which it has an object of that name; each call ends; two calls that open the same name return the same object, which is usable; a sub-database that was saved has its salt on disk; and once a deletion has returned there is no file of the sub-database and the parent does not know it.", "quantifier": "every number of tasks and names, every set of sub-databases open or on disk at the start, every order in which the steps of the tasks are mixed", "why_tests_cant": "The event loop and the threads that do file operations choose the order of steps; a test sees few of the orders.", "anchors": ["aiootp/databases/async_database.py: AsyncDatabase.ametatag, adelete_metatag, adelete_database, _anullify, asave_database, _aload_manifest, _aopen_manifest, _asave_manifest", "aiootp/databases/database_properties.py: DatabaseProperties.metatags"]}
{"id": "C90", "title": "Generators over other iterators give every item once and in order", "statement": "The asynchronous generators that unpack, zip and collate iterables give the items of these in order, each once, and end or raise exactly where the iterables do: unpacking as its iterable, zipping as the first of the shortest, collating as the first that raises. A generator that empties a queue gives every item once and in order whatever is appended while it runs, and ends when it finds the queue empty. Counting and ranges give exactly the arithmetic progression asked for; a range of bytes gives its numbers in the given width up to the first that does not fit. As zip() of Python does, zipping no iterables ends at once.", "quantifier": "every number of iterables, their items and exceptions, every number of requests, every mix of appends and requests, every start, stop, step and width", "why_tests_cant": "Lengths, places of exceptions and the mix of producers and consumers are unbounded.", "anchors": ["aiootp/_gentools.py: aunpack, unpack, azip, acount, count, arange, abytes_range, bytes_range, acollate, collate, apopleft, popleft"]}
{"id": "C91", "title": "Deleting a database leaves no file behind, whoever uses it meanwhile", "statement": "Tasks of one event loop set, query and save tags of an AsyncDatabase while another task deletes it. Whatever the order in which they run, the deletion ends without an exception, and then there is no file of the database left, nor does one appear later; calls that come too late raise; and queries return only values that the tag has had.", "quantifier": "every number of tasks, tags and values, every order in which the steps of the tasks are mixed", "why_tests_cant": "The event loop and the threads that do file operations choose the order of steps; a test sees few of the orders.", "anchors": ["aiootp/databases/async_database.py: AsyncDatabase.adelete_database, _adelete_file, _anullify, aset_tag, aquery_tag, asave_tag", "aiootp/commons/slots.py: Slots.__iter__"]}
{"id": "C92", "title": "with Ignore(...) handles exceptions as a try statement does", "statement": "For every body and all handlers, with Ignore(*classes, if_except=f, if_else=g, finally_run=h) does what a try statement with these blocks does: an exception that is an instance of one of the classes is handed to f and swallowed if and only if f returns something true; every other exception comes out; g runs only if the body raised nothing and what it raises is not handled; h runs exactly once and last; without handlers the exceptions of these classes are swallowed and nothing else changes. The same holds for async with and coroutine functions. After a use in which nothing was raised the relay's error is None, and a handler of either kind is run.", "quantifier": "every body, handler and state of the world, every exception and tuple of classes, handlers set before or in the body, every way other tasks interfere or cancel at the points where the async form waits", "why_tests_cant": "A test runs a few bodies and handlers; which exceptions are raised where, what the handlers do to the relay and when a cancellation comes cannot be enumerated.", "anchors": ["aiootp/_exceptions.py: Ignore.__init__, __enter__, __exit__, __aenter__, __aexit__, _PlaceholderHandler"]}
{"id": "C93", "title": "A security report can be read by its addressee, and its key is kept", "statement": "If report_security_issue prints a report, then the owner of the secret key of the published X25519 key reads in it the email address and everything that was typed, at any later time; it prints one whenever the user consents, the key exchange works and the profile opens; without consent nothing is saved or printed; the secret key of the report is saved in the database of the given credentials before the report is shown, no other database changes, and the keys of the last four reports remain there in order; and no two different reports are encrypted under one key unless the hash functions collide.", "quantifier": "every list of answers and lines, every secret key and random value, every history of reports", "why_tests_cant": "A test types a few answers and has no access to the addressee's key; the round trip crosses eight layers of encoding for all messages.", "anchors": ["aiootp/__engagement/issue_reporting.py: report_security_issue", "aiootp/__init__.py: __PUBLIC_X25519_KEY__"]}
{"id": "C94", "title": "Displays of objects do not show what they hide", "statement": "repr of an object shows the names of its items that do not begin with an underscore and, for classes that mask their display, only the classes of the values, so that objects which differ only in hidden values are displayed alike, also when they are reached from objects that show their values; instances of FrozenInstance hide their values even in debug mode; others show them in debug mode, which is the mode last asked for, and the functions registered for it are each called once per change with the new mode.", "quantifier": "every memory with objects that refer to each other in any way, every history of calls that switch the debug mode", "why_tests_cant": "Tests display a few objects and look for a few texts; that nothing depends on a hidden value is a statement about all pairs of memories.", "anchors": ["aiootp/commons/slots.py: Slots.__repr__, OpenSlots, OpenFrozenSlots", "aiootp/commons/instances.py: FrozenInstance.__repr__", "aiootp/commons/namespaces.py", "aiootp/commons/typed_slots.py", "aiootp/_debug_control.py: DebugControl"]}
{"id": "C95", "title": "Files read back what was written, and appending loses nothing", "statement": "write replaces the contents of a file by the data, append adds the data behind them and creates the file if needed, read returns all or the first size bytes and changes nothing, and no call touches another file; wherever the program is killed, a file that one call writes holds what it held or a beginning of the data; calls that append to one file side by side lose nothing and keep the order of everyone's bytes, and tear nobody's data if the system takes them in one piece; a reader beside them gets a beginning of the file that has at least what it held when they began; every call comes back.", "quantifier": "every set of concurrent calls, every schedule of their system calls, every number of bytes the system transfers at a time, every failure and every point where the program is killed", "why_tests_cant": "Tests write small files one after the other, which the system takes in one piece; torn and interleaved data depend on schedules and sizes of pieces that a test does not control.", "anchors": ["aiootp/generics/byte_io.py: ByteIO.read, aread, write, awrite, append, aappend"]}
{"id": "C96", "title": "Mutable values: what the cache shares with the user, and what is saved", "statement": "The cache holds the user's own objects: until the tag is set again, dropped or rolled back, every query returns the same object. A save stores what the object, with everything it refers to, looks like at that moment, or raises and leaves the file; no change of an object changes a file. What was saved comes back, as new objects, after any changes; objects that come from a file and are not cached are the caller's alone: changing them changes nothing the database holds, and the reverse.", "quantifier": "every memory of objects that refer to each other in any way, every history of changes to objects and calls of the database", "why_tests_cant": "Tests change one object once; independence from all changes of all shared objects at all times is a statement about histories and memories.", "anchors": ["aiootp/databases/sync_database.py: set_tag, query_tag, pop_tag, rollback_tag, clear_cache, save_tag, save_database, _save_file, _save_tags", "aiootp/databases/database_properties.py: __setitem__, __getitem__", "aiootp/databases/async_database.py: the same methods"]}
{"id": "C97", "title": "The signing service: requests, responses and who is served", "statement": "Messages arrive whole however the network cuts the stream; what ends a channel early is reported. A request made with the key of the service for its package, received within two seconds, is answered with a summary of just the scope and files given, which the client opens, parses and which verifies under the public key of the package. Nothing is signed, stored or sent for any other client; its channel is closed and the service goes on as if it had not come. Answers do not depend on scopes and files of earlier clients, and only the signature of the requested version changes in the database. A response is accepted for one request only. The inventory sent for signing has the hash of every tracked file, and of the manifest as it will be written.", "quantifier": "every stream, cut into pieces in every way, every client, every sequence of clients, every state of the signer, every scope and set of files, every list of tracked files", "why_tests_cant": "Tests send a few requests over a local socket; all fragmentations, all clients and all histories of the signer cannot be tried.", "anchors": ["sign_package_service.py: buffer_recv, buffer_send, get_and_parse_request, produce_signed_summary, send_packaged_response, signing_service_loop", "sign_package_build.py: send_request, recv_response, discover_file_inventory", "aiootp/keygens/package_signer.py: PackageSigner.__init__"]}
{"id": "C98", "title": "What a concurrency guard says about itself is true", "statement": "At every moment exactly one of is_unused, is_pending, is_running, is_done and has_faulted answers True, and the answers only go forward; a fault is for ever and comes only from using the object twice. Inside its block a guard says it is running; before it enters it says unused or pending; it says done only after it left its block. Once a guard has entered, each guard that joined before it, if one of the two is exclusive, says that it is done.", "quantifier": "every set of guards, every policy, every schedule with misuse and cancellation", "why_tests_cant": "The answers are read by other threads and tasks at any moment of any interleaving; a test reads them at a few moments of one.", "anchors": ["aiootp/asynchs/guards/state_machine.py: is_unused, is_pending, is_running, is_done, has_faulted, transition_to_pending, transition_to_running, transition_to_done", "aiootp/asynchs/guards/concurrency_guard.py: ConcurrencyGuard.is_unused, is_pending, is_running, is_done, has_faulted, __enter__, __exit__", "aiootp/asynchs/guards/policies.py: notify_off, get_off_queue"]}
{"id": "C99", "title": "One authenticator shared by asyncio tasks answers as if the calls were made one at a time", "statement": "When several asyncio tasks feed blocks to one authenticator's streams, ask it for block ids, test, finalize and read the result, in any interleaving and with any tasks cancelled, then every call that is not turned away gets the reply it would get if the calls were made one at a time in the order in which they end, and the objects are left so. At most one finalization answers, and every tag shown is that one. A finalization is refused only behind another one of the same object, and a block only if the generator is busy with another block. A finalization cancelled on the way leaves the object without a tag for ever.", "quantifier": "every bundle of every Slick256-like cipher, every number of tasks, every schedule and every set of cancellations", "why_tests_cant": "The suspensions inside the asynchronous methods let the other tasks run at any of them; a test takes one order.", "anchors": ["aiootp/ciphers/stream_hmac.py: _aupdate_mac, anext_block_id, atest_next_block_id, afinalize, finalize, result, test_shmac", "aiootp/ciphers/shake_permute_cipher.py: _aencipher_then_hash, _ahash_then_decipher, acombine_streams"]}
{"id": "C100", "title": "One Chunky2048 authenticator shared by asyncio tasks answers as if the calls were made one at a time", "statement": "When several asyncio tasks feed blocks to one Chunky2048 authenticator's stream, ask it for block ids, test, finalize and read the result, in any interleaving and with any tasks cancelled, then every call that is not turned away gets the reply it would get if the calls were made one at a time in the order in which they end, and the objects are left so. At most one finalization answers, and every tag shown is that one.", "quantifier": "every bundle of every Chunky2048-like cipher, every number of tasks, every schedule and every set of cancellations", "why_tests_cant": "The first block is hashed in two halves with a suspension in between, and the keystream waits before each later key; what another task does there depends on the schedule.", "anchors": ["aiootp/ciphers/dual_output_shake_cipher.py: _anew_keystream, _aencipher_then_hash, _ahash_then_decipher, _aunique_cipher, _aunique_decipher, acombine_streams", "aiootp/ciphers/stream_hmac.py: _aupdate_mac, anext_block_id, afinalize"]}
{"id": "C101", "title": "A database used as a context manager is saved however the block ends, and raises what its body raises", "statement": "When a block [with db:] (or [async with db:]) ends, by itself or by an exception, what every tag then is in the object is what another process finds when it opens the database. The block raises just what its body raises, its calls return what they would without the block, and the object is left as without it. This holds for blocks inside blocks and for programs that catch the exceptions.", "quantifier": "every program of database calls, exceptions, handlers and nested blocks; every history before it; every storage meeting its laws", "why_tests_cant": "What a block must save depends on the whole history of the object, on where the exception is raised and on how blocks are nested.", "anchors": ["aiootp/databases/sync_database.py: __enter__, __exit__, save_database", "aiootp/databases/async_database.py: __aenter__, __aexit__, asave_database"]}
{"id": "C102", "title": "A permutation or a GUID maker shared by asyncio tasks answers each call as if it had been alone, at one moment of the call", "statement": "Any number of tasks may await the methods of one permutation, or of one GUID maker, at once. Each awaited method gives what the synchronous method gives on the object as it is at one moment between the beginning and the end of the call. Steps and increments count once each, in the order in which they end; cancelled calls change nothing; three turns of its task end a call. What one task permuted another recovers if no tweak ends in between. The GUIDs the tasks get are results of one sequential history, none is given twice, and none are equal while at most 256 are drawn, or at most 256 at each reading of a clock that does not go back.", "quantifier": "every schedule of any number of tasks, every point at which a task is suspended or cancelled, every key, every time and token", "why_tests_cant": "The outcome depends on how the tasks take turns inside the calls; tests see a few of the schedules.", "anchors": ["aiootp/_permutations/affine_xor_chain.py: AffineXORChain.apermute, ainvert, auncapped_permute, auncapped_invert, astep, aupdate_increment", "aiootp/_permutations/affine_permutation.py: AffinePermutation.apermute, ainvert", "aiootp/randoms/ids/guid.py: GUID.anew, aread", "aiootp/randoms/ids/raw_guid.py: RawGUID.anew, aread"]}
{"id": "C103", "title": "A guard with a QueueManually policy that nobody queued never runs, ends with IndexError, and no other guard notices it; one queued late but before it fails is like any other", "statement": "If the caller does not append a guard with a QueueManually or NonExclusiveQueueManually policy to the order queue, the guard never enters its block. The other guards on the same deques do exactly what they would do without it, so exclusion, order and progress hold among them. Once they are through, each forgotten guard ends with IndexError, and each exclusive one leaves one entry in the observers deque for ever. A guard that is appended late, but while it is still waiting, is not lost: exclusion, order by the time of the appends, and progress hold for it and for all others as if it had been queued before it was entered. If the guard is appended after it has failed, every guard that has not joined by then waits for ever.", "quantifier": "every set of guards and policies, every set of forgotten ones among those queued by hand, every schedule, every cancellation and second use; every moment of the late appends", "why_tests_cant": "How the forgotten guards interleave with the others is up to the scheduler, and the entries they leave are removed by other guards than those that made them; tests see a few schedules.", "anchors": ["aiootp/asynchs/guards/policies.py: QueueManuallyPolicy, NonExclusiveQueueManuallyPolicy, ExclusivePolicy, NonExclusivePolicy", "aiootp/asynchs/guards/concurrency_guard.py: ConcurrencyGuard.__enter__, __exit__, __aenter__, __aexit__", "aiootp/asynchs/guards/state_machine.py: ConcurrencyGuardUseTracker"]}
{"id": "C104", "title": "Contexts made by guard() run alone on their target, those made by monitor() run together, and arguments of the wrong kind are refused", "statement": "guard(target) and monitor(target) of a multi-target guard return a guard exactly if the policy is None or an instance of a class derived from the exclusive (for monitor: the non-exclusive) policy, the probe delay is None or positive and the target can be hashed; otherwise they raise TypeError, or ValueError for the delay. With policies that come from one kind only, guard() makes exclusive guards and monitor() shared ones, so while a block under guard(target) runs no other block on that target does, whatever the program. If every guard is entered once and keeps getting its turn, all blocks run and the manager forgets all targets.", "quantifier": "every argument, every class hierarchy of policies, every program that makes and uses any number of guards, every schedule, cancellation and second entry", "why_tests_cant": "The classes, the arguments and the interleavings cannot be enumerated.", "anchors": ["aiootp/asynchs/guards/manager.py: MultiConcurrencyGaurd.guard, monitor, _ensure_valid_policy, _pass_self_references", "aiootp/asynchs/concurrency_interface.py: process_probe_delay", "aiootp/asynchs/guards/policies.py: ExclusivePolicy, QueueManuallyPolicy, NonExclusivePolicy, NonExclusiveQueueManuallyPolicy"]}
{"id": "C105", "title": "A class with typed slots has a checkable type for each slot, or is refused when it is defined", "statement": "However classes are derived from TypedSlots and from each other, in each of them the slots other than __dict__ are exactly the names with a declared type, each type works with isinstance, and so what a slot of an instance holds is always of the slot's type. A class statement is refused exactly if a slot, own or inherited, has a reserved name, a declared type cannot be checked or is for a name that is no slot or for __dict__, or a slot has no type. The type of a slot is the one the class declares, or else the one of the first class in its order of resolution that has one; with single inheritance this is the nearest declaration.", "quantifier": "every sequence of class statements, every order of resolution, every set of types and names, every sequence of operations on instances", "why_tests_cant": "Class hierarchies cannot be enumerated.", "anchors": ["aiootp/commons/typed_slots.py: TypedSlots.__init_subclass__, _make_frozen_class_slots_types, _copy_acceptable_type_declarations", "aiootp/commons/slots.py: Slots.__init_subclass__"]}
{"id": "C106", "title": "The synchronous random number generator works from every thread", "statement": "random_number_generator() returns its random bytes whichever thread calls it, however often, provided that no other thread is in a call of it and that the calling thread is not within a running event loop; in the latter case it raises RuntimeError. A call that is left alone always ends. The full property, without the proviso, is false: all threads share one event loop.", "quantifier": "every program of calls in any number of threads, every schedule, every length of the calls", "why_tests_cant": "The interleavings of threads cannot be enumerated.", "anchors": ["aiootp/randoms/rng.py: random_number_generator, _run"]}
{"id": "C107", "title": "A saved tree of databases is found again", "statement": "When save_database() on a database with metatags returns, another process with the same key finds the whole tree: the same metatags at the same dotted paths, each with the same tags and metatags listed, and query_tag gives for each tag the value that the object had when it was saved, cached or only in its file. This does not hold of a metatag's database that is saved by itself below a database that was never saved.", "quantifier": "every tree of databases, every depth, every state of their caches and files, every order of the sets, loading with and without preload, silent or not", "why_tests_cant": "Trees and their histories cannot be enumerated.", "anchors": ["aiootp/databases/sync_database.py: save_database, _save_metatags, save_tags, load_database, load_metatags, metatag, _metatag_key, query_tag"]}
{"id": "C108", "title": "One guard used by many threads lets one of them in at most", "statement": "Whatever calls any number of threads make on one guard object, the transitions that succeed are unused to pending, pending to running, running to done, in this order and each at most once, so that one thread at most gets into the guarded block. A refused use leaves the guard faulted for good: this holds if no other thread is in the middle of a transition, and not in general. The fault signals registered in a context run in order if and only if the context ends in an exception.", "quantifier": "every number of threads, every sequence of calls by each, every interleaving of their operations; every sequence of contexts and signals", "why_tests_cant": "The interleavings of threads cannot be enumerated.", "anchors": ["aiootp/asynchs/guards/state_machine.py: ConcurrencyGuardUseTracker", "aiootp/asynchs/guards/policies.py: ExclusivePolicy.use, NonExclusivePolicy.use"]}
{"id": "C109", "title": "Several objects of one database share what is saved, and nothing else", "statement": "Any number of objects made with the same key and path, in one or several processes, behave as objects that share the stored values and the saved listing and have a cache and a listing of their own. A value that one object saves is given by all the others that have no other value for it cached, until somebody sets or removes the tag; a cached value is never refreshed. The listing found by those who open the database is exactly that of the object which saved it last. It does not hold that a saved tag stays listed, that a removed tag stays removed, or that values saved stay reachable when two objects were opened before the first save.", "quantifier": "every number of objects, every sequence of openings and calls by them, all tags and values", "why_tests_cant": "The orders of the calls of several processes cannot be enumerated.", "anchors": ["aiootp/databases/sync_database.py: SyncDatabase.__init__, _load_manifest, load_database, query_tag, set_tag, save_tag, save_database, pop_tag", "aiootp/databases/async_database.py: AsyncDatabase"]}
{"id": "C110", "title": "Error messages report the values they are given, and nothing of secrets", "statement": "Every message made for an exception has the reported values in their places as they are: for all messages with one value, for all with numbers, and for those with two values unless the text of the first has in it the name that stands for the second. The refusal of a passphrase or a salt depends on its length at most, not on its contents. A message that a length is not some number should be true; it is for node ids, raw ids and keys of permutations, and it is false for GUIDs and for the data of decryption streams, where the number is the length.", "quantifier": "all values and their texts, all numbers", "why_tests_cant": "The texts that are put into messages are unbounded; the failing ones are those that look like parts of a template.", "anchors": ["aiootp/_exceptions.py: Issue, KeyAADIssue, SHMACIssue, PasscryptIssue, DatabaseIssue, PackageSignerIssue, Metadata", "aiootp/randoms/ids/guid.py: GUID.read", "aiootp/ciphers/decipher_streams.py: DecipherStream.buffer"]}
{"id": "C111", "title": "Replacing a package's modules leaves exactly the public parts, importable and reachable alike", "statement": "After a package has been remade, every subpackage and module at any depth can be imported by its import name, what is imported has the same items as what is reached by attributes from the package, and these are exactly the names declared public, its subpackages and modules, and the five names that every module has. Private names cannot be imported any more. Modules outside of the package are untouched. It succeeds if every part has an import name. This holds when import names are distinct and the parts of each package have distinct names.", "quantifier": "all packages (any depth and width), all states of the table of modules", "why_tests_cant": "Trees of packages are unbounded; a test looks at the one tree that the package is.", "anchors": ["aiootp/commons/packaging.py: make_module, remake_module, remake_subpackage"]}
{"id": "C112", "title": "The registry of types: additions are checked and never change what a name stands for", "statement": "Typing.add_type accepts an object if and only if it has what a class has, its qualified name is an identifier that begins with an upper case letter and has no underscore, and the name is not taken; each other case is refused with its own exception. Whatever is added, in any order and also after refusals, no name of the registry ever stands for something else, and every new name belongs to a type of that name which was added. A name that is found on a class cannot be added to it: refuted for classes derived from the registry. Of the constants' modules exactly the upper case names without a leading underscore are published.", "quantifier": "all registries, all objects, all sequences of additions, all derivation chains of classes", "why_tests_cant": "Sequences of additions and names are unbounded.", "anchors": ["aiootp/_typing/interface.py: Typing.add_type, Typing._test_type, Typing._test_type_name", "aiootp/_constants/__init__.py: collect_non_private_constants"]}
{"id": "C113", "title": "The entropy daemon feeds until it is cancelled, and then ends", "statement": "From its start a daemon's thread feeds the pool in every round of its loop and does not end until the daemon is cancelled. After cancel every thread that was started, however many there are, feeds the pool at most once more, not at all if it was asleep, and ends when it has had four turns. A thread that has ended has fed at least once. A daemon that is started again after it was cancelled runs until it is cancelled again: refuted, each such thread feeds at most once and ends.", "quantifier": "all histories of starts, cancellations and turns of threads", "why_tests_cant": "The interleavings of threads with starts and cancellations are unbounded.", "anchors": ["aiootp/randoms/entropy_daemon.py: EntropyDaemon.start, EntropyDaemon.cancel, EntropyDaemon._araw_loop"]}
{"id": "C114", "title": "asyncio's debug mode follows the package's", "statement": "DebugControl.is_debugging() tells what was asked for last, also when that call raised. An event loop that stays the current one is in asyncio's debug mode exactly when is_debugging() is true; loops that are not current are never touched; a change of the mode raises if and only if there is no current loop. The current event loop is always in debug mode exactly when is_debugging() is true: refuted for loops that become current later, for loops that were current when debugging was enabled and are not when it is disabled, and after a call that raised.", "quantifier": "all sequences of calls, new event loops and changes of the current loop", "why_tests_cant": "Programs create and change event loops in any order.", "anchors": ["aiootp/_debug_control.py: DebugControl.enable_debugging, disable_debugging, is_debugging", "aiootp/asynchs/loops.py: the switch appended to DebugControl._switches"]}
{"id": "C115", "title": "NamespaceMapping is a mapping, as long as its methods' names are not stored", "statement": "NamespaceMapping holds what was stored in it: every operation that does not raise changes what it should and nothing else, after any history; items, attributes, membership, length and iteration agree; deletions raise exactly for names that are not held and assignments never. Its methods keys, values, items, update and clear work exactly as long as their own name is not stored, so that any name can be stored without harm is refuted. A mapping and keywords have the same precedence in the constructor and in update: refuted, they are opposite.", "quantifier": "all histories of operations, all names and values", "why_tests_cant": "Histories and names are unbounded; the failing names are those of methods.", "anchors": ["aiootp/_constants/__init__.py: NamespaceMapping"]}
