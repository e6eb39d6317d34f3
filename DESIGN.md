# Formal model of aiootp in Rocq (Coq 8.16.1)

## Approach

Every modelled Python function is a total, computable Gallina function which mirrors it branch by branch, with raised exceptions as values (`Err e`). Byte strings are `list byte` (`Coq.Init.Byte`), Python integers are `N`/`Z`. Cryptographic primitives, the clock and randomness are *parameters* of the model (Section variables, so explicit universally quantified arguments of the final theorems) and never axioms. Generators that are driven by a context become state machines whose operations are the API calls. Thread interleavings are explicit step relations over per-thread program counters, with one step per atomic deque or attribute access.

Layout: `*Model.v` holds definitions only (each citing the source lines), `*Spec.v` the independent specifications, `*Proofs.v` the lemmas, and `*Props.v` the property theorems, each closed by `exact`, followed by `Print Assumptions`, with an `Example` showing a concrete case which meets the hypotheses.

## Trusted base

**Kernel.** The theorems are accepted by the kernel of Coq 8.16.1 and by `coqchk`. No kernel check is switched off, there are no axioms, `Admitted`, functors or module types, and no OCaml plugins beyond those of the standard library. `vm_compute` (part of the kernel's conversion) is used in some proofs; `coqchk` rechecks them without it.

**Print Assumptions.** Every theorem named in MANIFEST.json is followed by `Print Assumptions` in its `*Props.v` file. Each of them prints `Closed under the global context`: no theorem depends on an axiom, not even one of the standard library. The context that `coqchk` lists for the whole library contains seven constants of `Coq.ssr.ssrunder` (`Under_rel.Under_rel`, `Under_rel_from_rel`, `Under_relE`, `Over_rel`, `over_rel`, `over_rel_done`, `under_rel_done`); they are module parameters of the standard library that come with loading `ssreflect`-based files of the library, and no theorem here uses them.

**Transcription.** That the Gallina functions say what the Python code does is trusted. Each definition cites the lines it was read from; the code itself was not run. The theorems are about the synchronous functions; where the asynchronous ones repeat the statements the comment says so.

**Semantics taken for granted.** Python's `int`, `bytes`, `str`, `dict`, `list`, `deque`, slices, `range`, `int.to_bytes`, `base64`, `io.BytesIO`, true division of ints, and exceptions behave as modelled in Base.v, StrModel.v, ClockModel.v and at the places cited. `json.dumps` and `json.loads` are modelled after CPython (JsonModel.v, LoadsModel.v). One operation on a `deque` and one operating system call are atomic (GuardModel.v, SaltModel.v).

**Parameters.** These are universally quantified in the theorems, with the properties assumed of them as visible hypotheses: the hash functions (an XOF returns as many bytes as it is asked for; nothing is assumed about collisions, which appear in conclusions as explicit pairs of inputs), the elliptic curve operations of the `cryptography` package, random draws, clock readings, process and thread identifiers, schedules, crash points, and the contents of files. The multipliers of the permutations are parameters except in MultModel.v, which derives them.

## What is modelled

| Code in /repo/aiootp | Model |
|---|---|
| generics/canon.py, generics/hashing.py | CanonModel |
| generics/transform.py, generics/byte_io.py (base conversion, file names, URL-safe text, integers; phrases in MnemonicModel) | TransformModel, NameModel, MnemonicModel |
| generics/domains.py and all domain constants of the package but those of randoms | DomainsModel |
| _gentools.py (batch, resize, cycle, bytes_count) | GentoolsModel |
| _permutations/* | PermModel, MultModel |
| asynchs/clocks.py | ClockModel |
| asynchs/guards/* | GuardModel, ManagerModel |
| asynchs/concurrency_interface.py, threads.py, processes.py (new, submit, gather) | PoolModel |
| randoms/ids/* | IdModel |
| randoms/simple.py, threading_safe_entropy_pool.py, rng.py, _early_salts.py, entropy_daemon.py | RandomModel |
| ciphers/padding.py, cipher_kdfs.py, key_bundle.py, synthetic_iv.py, stream_hmac.py, stream_junction.py, shake_permute_cipher.py, dual_output_shake_cipher.py, cipher_interface.py, ciphertext_formatting.py, slick_256*.py, chunky_2048*.py | CipherModel, AuthModel |
| ciphers/*_config.py (construction, checks, fingerprint) | ConfigModel |
| ciphers/cipher_streams.py, decipher_streams.py | StreamModel |
| ciphers/cipher_streams.py (one asynchronous stream shared by several tasks) | FeedModel |
| ciphers/decipher_streams.py (one asynchronous stream shared by several tasks) | ReceiveModel |
| keygens/domain_kdf.py, databases/dbkdf.py | KdfModel |
| keygens/passcrypt/* | PasscryptModel |
| keygens/mnemonics.py | MnemonicModel, WordLists |
| keygens/curve_25519/* | CurveModel |
| keygens/package_signer.py, package_verifier.py | PackageModel |
| databases/sync_database.py, database_properties.py, dbdomains.py | DbModel, StoreModel, TreeModel |
| databases/async_database.py (tag operations of several tasks, cut where they yield) | TasksModel |
| databases/async_database.py (a save of the database mixed with tag operations) | SaveModel |
| databases/async_database.py (tasks that open, save and delete sub-databases) | MetaModel |
| databases/profile_tokens.py | ProfileModel |
| _gentools.py (generators over other iterators) | IterModel |
| databases/async_database.py (deletion while in use) | WipeModel |
| _exceptions.py (`Ignore`) | IgnoreModel |
| __engagement/issue_reporting.py | ReportModel |
| _debug_control.py; `__repr__` in commons/slots.py, instances.py | ReprModel |
| generics/byte_io.py (files) | FileModel |
| databases/sync_database.py: the cache as references to mutable objects | AliasModel |
| sign_package_service.py, sign_package_build.py (not: the prompts, the key negotiation, git, opening sockets) | ServiceModel |
| asynchs/guards: status methods | StatusModel |
| ciphers/stream_hmac.py, shake_permute_cipher.py: suspensions of the asynchronous methods | AwaitModel |
| ciphers/dual_output_shake_cipher.py: suspensions of the asynchronous methods | DualModel |
| databases/*_database.py: `__enter__`, `__exit__`, `__aenter__`, `__aexit__` | WithModel |
| _permutations/affine_xor_chain.py, affine_permutation.py: the asynchronous methods, by tasks | WeaveModel |
| randoms/ids/guid.py, raw_guid.py: `anew`, `aread`, by tasks | WeaveModel |
| asynchs/guards/policies.py: guards queued by hand that are not, or are too late | UnqueuedModel |
| asynchs/guards/manager.py: guard, monitor and the checks of their arguments; concurrency_interface.py: process_probe_delay | GateModel |
| commons/slots.py, typed_slots.py: `__init_subclass__` and what it calls | DefineModel |
| randoms/rng.py: random_number_generator and the event loop shared by all threads | LoopModel |
| asynchs/guards/state_machine.py: the tracker used by many threads, fault signals | TrackModel |
| databases/sync_database.py: several objects of one database | ShareModel |
| _exceptions.py: the messages with values in them | IssueModel |
| commons/packaging.py | RemakeModel |
| _typing/interface.py: add_type; _constants/__init__.py: collect_non_private_constants | RegistryModel |
| randoms/entropy_daemon.py: start, cancel, _araw_loop | DaemonModel |
| _debug_control.py with the switch of asynchs/loops.py, for several event loops | LoopsModel |
| _constants/__init__.py: NamespaceMapping | BagModel |
| commons/instances.py, slots.py, typed_slots.py, namespaces.py, configs.py | ContainersModel |
| _paths.py | SaltModel, NameModel |
| json.dumps, json.loads of the standard library | JsonModel, LoadsModel |

## What is not modelled

- `__repr__` of classes other than those in ReprModel.v, documentation strings, type annotations (`_typing/*` except `add_type`, RegistryModel.v), and the `__init__.py` modules that only export names.
- The texts of exceptions (`_exceptions.py`), except in IssueModel.v: elsewhere an exception is its class, with the number it carries where a caller can act on it.
- `asynchs/loops.py`, `aos.py`: thin wrappers of event loops and system calls. Broken process pools and `reset_pool`. Apart from FileModel.v, a model that reads or writes files has its own steps for it.
- Type checks of arguments whose model has one type already (`TypeError`s on `isinstance`), except in ContainersModel.v and where a property is about them.
- Timing, memory use and garbage collection; `hmac.compare_digest` is equality.
- The interleaving of the asynchronous database methods that load whole databases; those on tags are in TasksModel.v, saving is in SaveModel.v, opening, saving and deleting sub-databases (without tags) in MetaModel.v, deleting a database with tags in WipeModel.v.
- Negative sizes and bases in transform.py, limits on the digits of an `int`, the recursion limit.

## Plan per property

- **C01 Canonical packing round-trips.** Model canon.py over `list byte`; prove unpack (pack ..) = Ok items by induction on the items.
- **C02 Canonical packing is injective.** From the generic parser inversion; integer width is recovered from the first byte.
- **C03 Canonical packing is block aligned and minimal.** Length arithmetic over N; the output is exhibited as content ++ repeat pad k with k < blocksize.
- **C04 Canonical unpacking never invents data.** Inversion of the parser on an arbitrary input; relation 'input = pack(items, declared metadata) ++ pad blocks'.
- **C05 Canonical unpacking fails only with its documented error.** Refuted: a declared blocksize of zero gives ZeroDivisionError. Positive theorem for nonzero declared blocksize.
- **C06 Key encoding is injective and block aligned.** Split the encoding at its fixed-width suffix/prefix.
- **C07 Hash inputs are domain separated.** The bytes absorbed by the hash object are modelled as a list; injectivity via C02/C06. Cross-key confusion examined separately.
- **C08 Base conversion round-trips.** Positional notation over N; induction on digits.
- **C09 Filename encoding round-trips.** Refuted for leading zero bytes; proved for all byte strings not starting with a zero byte.
- **C10 URL-safe encoding round-trips and is unambiguous.** Model RFC 4648 base64 bit arithmetic as the stdlib function used by the code; prove per 3-byte group.
- **C11 Affine permutation is a bijection with its inverse.** Model over Z with a modular inverse computed as pow(x,-1,p) does (failing if not coprime); the cycle walk is a fuelled loop; permutation argument for termination.
- **C12 Affine xor chains stay inverse in lock step.** State machine (key, increment) with op lists; composition of bijections.
- **C13 Latin-square steps of the xor chain.** Odd increments generate Z/2^k: k-fold addition is injective; Latin square from injectivity in both arguments.
- **C14 Permutation keys and increments are validated.** Total error branches of the model.
- **C15 Sequence IDs are reversible and unique.** Instantiate C12 without stepping.
- **C16 Raw GUIDs are laid out losslessly and unique per tick.** RawGUID as a state machine with oracle inputs (time, token) per call.
- **C17 GUIDs are reversible and preserve uniqueness.** C11 + C16.
- **C18 Sort order of raw GUID containers.** Lexicographic order of equal-length big-endian fields.
- **C19 Plaintext padding round-trips.** Model padding.py; proof by length arithmetic. The general configuration is refuted for frames whose sentinel needs more bytes than the padding can hold.
- **C20 Timestamps and time-to-live.** Clock model over Z with explicit epoch and unit divisor.
- **C21 One-shot encryption round-trips (Slick256).** The hash is an oracle `shake : rate-tag -> absorbed bytes -> n -> bytes` (a Section variable with the single law length = n); the cipher's Python generators become folds over blocks.
- **C22 One-shot encryption round-trips (Chunky2048).** As C21 with the two-stream Chunky2048 model, including the slices [::2] and [1::2].
- **C23 Ciphertext layout and size.** Length arithmetic on the encrypt model and the parser's error branch.
- **C24 No plaintext without a valid authentication tag.** Case analysis of decrypt; specification of the tag independent of the decipher loop.
- **C25 The authentication tag binds every input.** Transcript (list of absorbed bytes) injectivity by length-delimited parsing from the back.
- **C26 JSON and token encryption round-trip.** json serialiser as a pair of functions with a round-trip premise; tokens via C10.
- **C27 Online encryption is independent of chunking.** Stream state machine with operations Buffer/Drain/Finalize; invariant relating the state to the one-shot fold.
- **C28 Online decryption recovers the stream.** Same for the decipher stream.
- **C29 A rejected packet does not disturb an online decryption.** State equality after a rejected packet, then simulation.
- **C30 The time-to-live of an online decryption is enforced before plaintext is released.** Refuted by a call history (iterate before buffering); positive theorems for histories in which packets are only fed until one is accepted, and for all histories in which no IndexError was raised.
- **C31 Authenticators are single use.** Transition system of the authenticator over method calls.
- **C32 Key bundles are single use and encryption always draws a fresh IV.** Transition system of the bundle + junction.
- **C33 Block IDs detect any change.** Transcript injectivity for block ids.
- **C34 Exclusive guards give mutual exclusion.** Interleaving transition system: each atomic deque/state access of __enter__/__exit__ is one step of a per-guard program counter; global invariant.
- **C35 Guards are served first come first served.** History variables: queue-join order and entry order; prefix relation as invariant.
- **C36 Guards never deadlock or fault in correct use.** Invariant + progress lemma + a termination measure for the waiting time.
- **C37 Cancelling a waiting guard does not block the others.** Refuted in the transition system extended with a cancel action, with a permanent-blocking invariant.
- **C38 A guard object is used at most once.** Finite state machine with the emptied deque as fault state.
- **C39 Per-target guard bookkeeping.** Interleaving model with the lock as atomic section; invariant users/deques/targets.
- **C40 The database session behaves as a map.** Refinement of the (manifest, cache, disk) state to a finite map.
- **C41 Saving a database makes it durable.** Save/load with an abstract authenticated cipher and filename function, injective on the tags used.
- **C42 Rolling back and clearing the cache.** State equations on the same model.
- **C43 A crash during saving loses no committed value of other tags.** File-operation trace of save; every prefix of the trace is a crash state.
- **C44 Reloading a database discards unsaved changes.** Refuted with a concrete history; positive theorem for uncached tags.
- **C45 Saving a single tag is enough to find it again.** Refuted with a concrete history; positive theorem when the manifest was saved.
- **C46 Metatag databases are isolated from their parent.** Two database states with a common disk with disjoint filenames (derived from different salts).
- **C47 Domain KDF outputs are separated.** Transcript injectivity.
- **C48 Passcrypt hash strings round-trip.** Parser/printer over bytes.
- **C49 Verification cost is bounded before work starts.** Trace of effects of verify: Work event occurs only after all checks.
- **C50 Passphrase verification accepts exactly matching passphrases.** Verify model with session oracle. Two inputs that verify one hash give colliding queries; for associated data of other lengths a colliding pair of inputs is constructed instead (PasscryptConfusion.v).
- **C51 Passcrypt memory accesses stay in the allocated memory.** Index arithmetic of the prover loop with Python slice semantics (negative indices, None end).
- **C52 Key exchanges agree.** Abstract group action with commutativity as premise.
- **C53 Curve key objects are set once.** State machine.
- **C54 Mnemonics are words of the list.** Index arithmetic.
- **C55 Package signing and verification agree.** The signer as a state machine over its calls, the verifier as a function with a log of the files it reads; `json.dumps` is modelled and proved injective; Ed25519 over an abstract curve.
- **C56 Salt files.** File system state with mode bits.
- **C57 Concurrent creation of a salt path yields one salt.** Refuted by an interleaving.
- **C58 Frozen containers are immutable.** Operation semantics of the containers; `clear` on frozen namespaces is examined as a suspected violation.
- **C59 Configuration registries never rebind.** State machine.
- **C60 Batching and resizing preserve the data.** Generators as list functions.
- **C61 Canonical tokens do not mix their fields.** Bit-field arithmetic over N.
- **C62 Passcrypt memory accesses are independent of secrets.** Simulation between two runs: same memory length, same accesses.
- **C63 Passcrypt overwrites its whole memory.** The starts of the writes of the schedule are a permutation of the cells.
- **C64 Key exchange objects are used for one exchange.** Transition system of one exchange object: synchronous calls and coroutines cut at their awaits; invariant over all event lists.
- **C65 Signatures verify.** Functions over an abstract signature scheme with its correctness law as premise.
- **C66 Keyed choices are as uniform as their indexes.** Lists of the blocks that choose a position, with their exact lengths; the word lists are copied into the model.
- **C67 Phrase encoding round trip.** List functions; the word list is checked by computation (unique lowercase words), the rest by induction.
- **C68 Typed slots only hold values of their type.** Invariant over operation lists of the container model of C58.
- **C69 Iterating a container lists its contents.** The listing is compared with what can be read, after any operation list.
- **C70 The entropy pool is never read twice on one input.** Threads as lists of calls, each cut at its operations on the shared hashing object; an invariant over all schedules gives each reading the place of its own token in what was absorbed.
- **C71 Salted multiplications give numbers of 256 bits.** Integer arithmetic; invariant of the three globals over all histories.
- **C72 The entropy daemon's delay is positive and temporary delays end.** State machine over settings and clock readings.
- **C73 Generating random numbers renews the pool.** The bounded deque as a list.
- **C74 Names of salt files are deniable.** Fold of XOR over big-endian pieces; inverses of XOR give the forged block.
- **C75 Generated file names are safe and short.** The base-conversion model of C08 with its alphabet; length by bounds of powers.
- **C76 Domain constants are distinct.** The table of names as data; injectivity of the hashed encoding (C07) and a computed check that no two entries are equal.
- **C77 A cipher configuration is bound by its fingerprint.** The constructors as functions from settings to a configuration or an exception; injectivity of the packed metadata (texts of integers and slices); composition with the cipher round trip (C21). Refuted for the time unit by an explicit pair of configurations.
- **C78 Derived multipliers are suitable and invertible.** The search as a fuelled loop over candidates; bit counting by induction on binary numbers; primality of the moduli of 1 to 32 bytes by Pocklington's criterion (proved in PrimeProofs.v from Fermat's little theorem) with certificates in PrimeCerts1-4.v that were found outside Coq and are checked by the kernel.
- **C79 A database writes only ciphertexts, each with fresh random values, and only to its own files.** Invariant over operation lists on the log of file operations of the model of C40.
- **C80 JSON data comes back as it was given.** `LoadsModel.v` models `json.loads` (scanner, string unescaping, numbers, arrays, objects with repeated keys) next to the `json.dumps` of `JsonModel.v`. Proved by induction over values (`loads (dumps v) = v` for values without surrogate pairs and repeated keys) and over the parser (everything it returns is such a value); composed with C26 for whole JSON messages. The failure for surrogate pairs is C80_surrogate_pairs_refuted.
- **C81 What a database writes.** StoreModel instantiates the parameters of DbModel with the concrete derivations (KdfModel), file names (TransformModel), ciphers (CipherModel) and JSON (LoadsModel); the laws of DbSpec become theorems, so C40 and C41 hold of the concrete database. Separation by injectivity of the hash inputs, ending in collisions of explicitly given inputs.
- **C82 Profiles.** ProfileModel.v composes the salt files of C56, the names of C74,
  passcrypt of C50 and the database of C81 as `generate_profile` does.  The directory's
  salts are a finite map with permission bits; histories are lists of generations (of any
  inputs, also refused ones) and deletions.  Login keys are traced back through passcrypt's
  tag, the prekey and the gist, each step either injective or an explicit collision.

- **C83 Functions run in a thread or process of their own.** PoolModel.v: one child and one caller as a transition system with any schedule; a process writes its pickled value into a pipe of bounded capacity piece by piece and ends when all is written, the caller probes until the child is gone and then reads. Proof by an invariant and a measure: the value reaches the caller if it fits; refuted for exceptions (always `queue.Empty`), for values larger than the pipe (the caller waits for ever) and for values that cannot be pickled.
- **C84 Functions gathered in a pool.** PoolModel.v: futures, a queue, workers and the steps of `gather`, among submissions and cancellations of others, in any order. Invariants give: the call ends as if the functions were run one after the other, each is handed to a worker at most once, none is handed over after the call ended; a drain argument shows that the call can end from every reachable state.
- **C85 Tasks on one asynchronous database.** TasksModel.v: each operation is a program cut where it awaits something that yields; any number of tasks and any schedule. Different tags by a simulation of each task alone; one tag by invariants; the rest is refuted by schedules whose outcome no order of the operations has.
- **C86 Tasks on one cipher stream.** FeedModel.v: tasks that feed, one that iterates and finalizes, cut where they yield; the guard is the line of those who wait. An invariant relates every reachable state to the sequential invariant of C27, with what the feeder inside has read so far; a schedule that ends everything is constructed from every reachable state. Cancellation and a second consumer are refuted by schedules.
- **C87 Tasks on one decipher stream.** ReceiveModel.v: tasks that feed, one that iterates and finalizes, cut where they yield, with the moments at which they run. A simulation: every reachable state is related to a state of the sequential model of C28–C30, reached by a sequence of calls with the same answers, so that those theorems carry over; a schedule that ends everything is constructed from every reachable state. Cancellation and a second reader are refuted by schedules.
- **C88 Saving a database in use.** SaveModel.v: a task that saves the database, cut where it yields, the tasks its gather makes, and the tag operations of TasksModel.v. An invariant over all schedules from the moment before the save begins relates what is encrypted to the history of the cache. A schedule that ends the save is constructed from every reachable state. Pops and second saves are refuted by schedules.
- **C89 Tasks that share sub-databases.** MetaModel.v: the parent's attributes and list, the heap of sub-database objects, the files of their manifests with the numbers that tell them apart, and tasks cut where they yield. Invariants over all schedules for consistency, for an open sub-database, for one that is on disk, and for one that a single task deletes; a rank gives the end of each task. One object for a name, and deletion for good, are refuted by schedules.
- **C90 Generators over iterators.** IterModel.v: an iterator is the list of its items and the exception behind them; each generator is a function from its state to an item or an end and the next state, driven by any number of requests. IterProofs.v: induction over the requests and the items; for zipping, over the rows, with the first of the shortest iterators as the measure.
- **C91 Deleting a database in use.** WipeModel.v: the manifest as the ordered dict that the deletion iterates over, with the size check of Python's iterators, the cache, the files and the object that loses its attributes; tasks step by step. WipeProofs.v: an invariant that follows the deletion, with the names it has still to visit, and a rank that its turns decrease.
- **C92 Exceptions handled by a context manager.** IgnoreModel.v: the relay as part of the state that bodies and handlers transform, handlers as names of code, the two exit methods branch by branch with the calls they make. IgnoreSpec.v: Python's try statement over any type of states. Case analysis; two refutations by concrete runs.
- **C93 Security reports.** ReportModel.v: the dialogue over a list of answers, the map of databases, message, keys and the four printed fields, on top of the models of canonical packing, padding, clocks, DomainKDF, X25519 and URL-safe text. ReportSpec.v: a reader that owns the addressee's secret key, and the dialogue as an inductive relation. Composition of C01, C10, C19, C47 and the exchange law; induction over sessions of reports.
- **C94 Displays and the debug mode.** ReprModel.v: a memory of objects that refer to each other, repr with a bound on nesting, the debug mode and the functions called when it changes. ReprSpec.v: memories that differ only in what is hidden. Noninterference by induction over the depth; invariants over histories of calls.
- **C95 Files.** FileModel.v: calls as sequences of system calls (open, read, write) which the operating system serves in any order and with any number of bytes. FileSpec.v: who put which byte. Invariants over schedules; counterexamples for torn reads and mixed writes.
- **C96 Mutable values.** AliasModel.v: a memory of objects that refer to each other, a cache of references, files that hold trees; the user changes objects between calls. AliasSpec.v: what an object looks like and which objects that depends on. Frame properties by invariants over histories.
- **C97 The signing service.** ServiceModel.v: sockets as lists of arriving pieces and exceptions, the service and its loop, the client, the inventory; ciphers, encodings, JSON and the signer are the earlier models. IndentProofs.v: JSON written with an indentation is read back. Induction over arrivals and clients; C01, C22, C24, C25, C55 and C80 for the parts.
- **C98 Status of guards.** StatusModel.v: the five methods over the states of GuardModel.v. StatusSpec.v: the answers after a schedule, their order. An invariant ties the state to the place in the code; a measure shows that answers only go forward.
- **C99 Authenticator shared by tasks.** AwaitModel.v: each asynchronous call split at the suspension that matters, over the calls of AuthModel.v. AwaitSpec.v: one at a time; who is turned away. An invariant ties each suspended task to the state of its object; each action is matched with calls made one at a time (refinement).
- **C100 Chunky2048 authenticator shared by tasks.** DualModel.v: each asynchronous call split at its suspensions (before the key, before the hash), over the calls of AuthModel.v. DualSpec.v: what disturbs the first block. A simulation between the state of the tasks and the world of calls made one at a time: bundles agree up to the keystream, and each suspended block is tied to what it will draw and hash.
- **C101 Databases as context managers.** WithModel.v: programs (calls, exceptions, sequences, handlers, blocks) over the calls of DbModel.v, with __exit__ and Python's rule for its result. WithSpec.v: the same programs on the map of DbSpec.v. Simulation by induction on the program; what another process finds by the simulation of lives in DbProofs.v.
- **C102 Permutations and GUID makers shared by tasks.** WeaveModel.v: each asynchronous method cut at its suspensions, over the objects of PermModel.v and IdModel.v; actions make, resume and cancel calls. WeaveSpec.v: a call seen from outside, the tweaks that ended, the moments at which raw GUIDs are drawn. An invariant ties what a suspended task will return to the object as it was when the call began, or as it will be; the GUIDs still to come are accounted for up to a permutation of the sequential history.
- **C103 Guards nobody queued.** UnqueuedModel.v: GuardModel.v from a start in which some of the guards that are queued by hand are entered without having been appended; and the append that comes late. UnqueuedSpec.v: the part of a schedule and of a trace that concerns the others. A simulation: the same schedule without the forgotten guards leads to the same queue and the same guards, and to as many non-exclusive observers; the exclusive observers differ by the marks of the forgotten. The theorems of C34, C35 and C36 carry over. A guard appended in time is simulated by one whose first steps are all taken at the moment of the append. A guard queued after its failure is simulated by one that was queued and cancelled.
- **C104 The guards a manager hands out.** GateModel.v: the two methods with their checks, a policy's class as its method resolution order, and programs that make guards and enter them, run on ManagerModel.v with what the guards were made of. GateSpec.v: which arguments fit, which classes are ordinary, which guards a program made by which method. Case analysis for the methods; exclusion and progress follow from C39.
- **C105 Defining classes with typed slots.** DefineModel.v: a class body and the classes that follow it in the order of resolution give a class or an exception, as the two `__init_subclass__` methods do; programs are lists of class statements. DefineSpec.v: what it is to be fully typed, which type is nearest. The loop over the classes is shown to be a merge of dicts; an invariant over programs gives the types of all classes, and C68 then gives the instances.
- **C106 One event loop for all.** LoopModel.v: threads that call run_until_complete of one shared loop, with its two checks, its mark, its rounds and its order to stop as steps. LoopSpec.v: what it is for calls to be made one after another. An invariant for the thread that is in a call; a measure for the end; the refutations are runs, the last one with a state that no step changes.
- **C107 A saved tree is found again.** On TreeModel.v. ForestSpec.v: what is expected of a tag after saving, trees whose keys follow from the ones above, and the laws asked of the storage. By induction over the tree, with the files of different objects apart: what saving leaves on disk; by induction again: what opening makes of it. That keys follow is an invariant of all calls. The refutation is a run.
- **C108 One guard, many threads.** TrackModel.v: a transition as the two operations on the deque that it consists of, any number of threads and schedules; and the loop over the fault signals. TrackSpec.v: the life of a guard, and the same calls one after another with the transitions of GuardModel. An invariant: there is at most one state, in the deque or in one thread's hands, and what is left of the life follows it. The refutations are runs.
- **C109 Several objects of one database.** ShareModel.v: a numbered set of objects over one world; each step opens one or calls one, with the functions of DbModel. ShareSpec.v: abstract objects with a cache and a listing of their own, and the stored values and the saved listing in common, each call being that of a single abstract database (DbSpec). ShareProofs.v: a simulation; what the relation of DbProofs says of an object's own parts survives any change of the files that the relation's other parts follow. The consequences are invariants of the abstract objects; the refutations are runs.
- **C110 Error messages.** IssueModel.v: str.replace, the templates, every function that makes a message from one, and the checks of lengths that report a number. Lemmas on str.replace: an occurrence is replaced; text in which no occurrence begins is passed; a value without the placeholder, followed by a character that the placeholder does not have, is passed. The templates are cut into pieces, checked by computation. The refutations are messages that the package makes.
- **C111 Remade packages.** RemakeModel.v: the tree, the table of modules, and the three functions. Induction over the tree: a frame (only names of the tree change in the table) together with the claim for every path. The two loops are shown to be one loop over all parts.
- **C112 The registry of types.** RegistryModel.v: the two tests with the order of their exceptions, add_type, sequences of calls on a chain of derived classes, Python's attribute lookup, and the choice of constants. Exact characterisation of acceptance, then an invariant over all call sequences, in both directions.
- **C113 Starting and cancelling the entropy daemon.** DaemonModel.v: the flag, the places of each thread in its loop, and events. Invariants over histories before the cancellation; after it a thread's history is its own turns, and those are at most four.
- **C114 Debug mode and event loops.** LoopsModel.v: the mode, every loop's flag and the current loop. Invariants over programs; the refutations are short programs.
- **C115 NamespaceMapping.** BagModel.v: the instance's dict, Python's attribute lookup for methods, and every method. Refinement of a function from names to values, over all histories; views by the fact that no key occurs twice.

## Findings

Where a property turned out false of the code the refutation is a theorem with the suffix `_refuted`, and MANIFEST.json says which part is proved instead. The main ones:

- Canonical unpacking accepts some truncated encodings; a declared block size of zero raises ZeroDivisionError and a declared length of 2^63 or more OverflowError (C04, C05).
- File names made from bytes lose leading zero bytes (C09).
- The key encoding puts the length behind the key. So a longer key can contain a shorter one and the start of what is absorbed behind it: two keys with associated data of different lengths share ciphertexts with Slick256 (C25), two domains of different lengths share derived keys (C47), and two passphrases with different associated data share a Passcrypt hash (C50).
- Padding frames of more than 256 bytes, which custom configurations may have, can lose plaintexts (C19).
- The nanosecond clock goes through a float division and is not exact (C20). The time unit of a configuration is not part of its fingerprint (C77).
- A DecipherStream asked for output too early raises IndexError and skips the age check from then on (C30). Starting an authenticator in the wrong mode blocks the right start (C31).
- A cancelled task can block a concurrency guard for ever (C37). Two threads can draw the same token from the pool and get the same output (C70), and can get the same GUID (C16).
- A function run with `Threads.new` or `Processes.new` that raises makes the caller see `queue.Empty`; `Processes.new` never returns if the value does not fit into a pipe (C83).
- clear_cache leaves tags listed that were never saved, load_database keeps cached values, and saving a tag with its manifest in a database never saved as a whole orphans it (C40, C44, C45).
- Tasks that use one tag of an asynchronous database at the same time can undo one another's work: a caching query puts an old value over a new one, two pops are both given the value, a pop or an uncached set destroys a value set meanwhile, and two saves can leave a file that belongs to neither (C85).
- A task cancelled in `abuffer` of a cipher stream leaves its bytes counted: the finalized ciphertext is authentic but decrypts to text with padding behind it. One cancelled while it waits for its turn blocks the stream for ever, and two tasks that iterate over one stream get packets with wrong IDs (C86).
- The age check of an AsyncDecipherStream is skipped if two tasks read it, or if a task is cancelled while it tests the age: the stream counts as tested from the moment the test begins, and expired plaintext is released. A task cancelled while its packet is deciphered ends the generator of the stream: every later genuine packet raises StopAsyncIteration (C87).
- `apop_tag` during `asave_database` makes the save raise AttributeError while other tags are not yet saved, or leaves the popped tag on disk and in the manifest; two overlapping saves write one manifest over the other, which can leave a file that is neither (C88).
- Two tasks that call `ametatag` with the same new name get two sub-databases with different salts, of which the parent keeps the second; `ametatag` during `adelete_metatag` returns an object that is then emptied; `asave_database` of a sub-database during `adelete_metatag` brings its file back although the deletion ends well, and the next `ametatag` opens it again (C89).
- `adelete_database` iterates over the dict of the manifest and awaits in between: a concurrent `aset_tag` of a new tag makes it raise RuntimeError with some files deleted and the manifest still on disk; a concurrent `asave_tag` leaves a file behind (C91).
- A coroutine function given as a handler to a plain `with Ignore(...)` is called but never awaited: its code does not run and the exception is swallowed, because a coroutine is true; and `error` is not reset when a relay is used again (C92).
- Only the keys of the last four security reports stay in the reporter's database: the fifth drops the first (C93).
- A name that is the empty string makes the display of a namespace raise IndexError; an OpenNamespace that contains itself raises RecursionError (C94).
- `enable_debugging` sets the mode before it calls the registered functions: if one raises (asyncio.get_event_loop() does in a thread without an event loop), the call fails and secrets are displayed from then on (C94).
- `write` empties the file before it writes: a concurrent reader, and a program that is killed, see a file that is empty or cut short, and two writers can leave a mixture (C95). The database saves its files this way.
- `save_tag(tag, drop_cache=True)`, and `set_tag(tag, value, cache=False)`, drop the cached value even when saving fails: the value is lost; after `set_tag` the tag is listed but has no value. `save_database` stops at the first value that cannot be saved, after the manifest was written (C96).
- `signing_service_loop` does not catch `KeyError`, `AttributeError`, `PermissionError` or `BrokenPipeError`: a request of a holder of the key without `package`, one with a file or scope named `keys`, `items`, ..., a package without a signing key, or a client that leaves before it is answered ends the service (C97; the channel is still closed). A client without the key can announce 2^64 - 1 bytes, which the service collects in memory before it authenticates anything.
- With threads the assertions in the documentation of `ConcurrencyGuard` can fail: `a.is_done()` inside an exclusive block entered after `a` left, since `a` leaves the observers before its state changes; and `has_faulted()` is True for a moment in each transition of a guard which is used properly (C98).
- Cancelling a task inside `StreamHMAC.afinalize` leaves the object without a tag for ever: it counts as finalized, `result` raises and a second finalization is refused (C99).
- `StreamHMAC.anext_block_id` answers for the state when the task goes on, not when it was called: with a block under way in another task the two differ (C99).
- Chunky2048 hashes the header of the first block before a suspension and the rest after it: if another task finalizes in between, or the task is cancelled there and the object is finalized later, the tag is that of no sequence of calls (C100).
- Leaving a `with db:` block by an exception saves what was assigned before it: a block is no transaction. If a value cannot be stored, the exception of the save replaces the one of the body, and the values assigned after it are not saved although their tags are listed (C101).
- `AffineXORChain.apermute` reads `_in_key` when it begins and `ainvert` when it ends: if another task steps the permutation while both are under way, the value is not recovered although both calls began before the step (C102).
- A guard with a `QueueManually` policy that was not appended to the order queue fails with IndexError as soon as it looks at an empty queue, outside the block whose fault signals would remove it from the observers: an entry is left there for ever. Appending the guard after that blocks every later guard (C103).
- A policy class that inherits from both the exclusive and the non-exclusive policy is accepted by `guard()` and by `monitor()`; which kind of guard comes out depends on the order of its bases (C104).
- When a class with typed slots inherits from several, a slot can get the type of a farther base rather than of the first class in the order of resolution that declares one: classes copy the types they inherit when they are defined, so a class that says nothing hides a sibling that narrows the type (C105). A subclass may also widen the type of an inherited slot.
- `random_number_generator` runs on one event loop made at import. Called in two threads at once, one call raises RuntimeError; called within a coroutine, it always does. In narrow races a refused call is still carried out by the other thread, or a call waits for ever (C106).
- The key of a metatag follows from the salt of the database above it, which is only written by saving that one. If only the metatag is saved, its files are there but no later process can derive its key (C107).
- A transition of a guard takes its state out of a deque and puts the next one in. In between the guard looks faulted: has_faulted() is True, another use is refused, enter_fault_state() has no effect; then the guard goes on as if nothing had happened (C108).
- If a fault signal raises, the signals after it do not run and stay registered, and its exception replaces the one of the block (C108).
- Several objects of one database: the last to save decides the listing, so that tags saved by others since it was opened are no longer listed (their files remain and query_tag finds them by name); an object that has a value cached writes it again with its next save, also after another has removed the tag (C109).
- Two objects opened before the first save make different salts. When the second saves, what the first saved can no longer be reached, and its files remain (C109).
- Messages with two values are made by replacing one name in the template after the other, also in what was just put in. When the slot KEY_TYPES is given something that is not a tuple the message says `The 'KEY_<class 'tuple'>S' value must be ...` (C110).
- GUID.read and the buffers of decryption streams refuse data of a wrong length with the message that its length is not the length which it is, e.g. `len(data) != 3.` for three bytes; the expected length is not told (C110).
- `add_type` of a class derived from `Typing` looks only at that class's own dictionary: names of `Typing` can be redefined there, where the check for defined names is meant to prevent it. `Typing` itself is not affected (C112).
- `EntropyDaemon.cancel` sets a flag that `start` does not reset: a daemon that is started again feeds the pool once and ends silently (C113).
- `enable_debugging()` puts only the event loop that is current at that moment into debug mode, so `asyncio.run` afterwards is not debugged, and `disable_debugging()` called from another loop leaves the first one in debug mode. Called in a thread without a loop it raises, but is_debugging() is true from then on and calling it again does nothing (C114).
- A value stored in a NamespaceMapping as `update`, `clear`, `keys`, `values` or `items` hides the method of that name; the constructor prefers the mapping over keywords and `update` the keywords over the mapping (C115).
- `azip()` without iterables yields empty lists for ever, where `zip()` of Python ends at once (C90).
- The memory range of Passcrypt's verify does not bound the memory it uses (C49).
- Readers of a salt file can make one another fail; a crash while it is made leaves a file that can never be opened; a torn update leaves a third salt (C56, C57).
- clear() empties a frozen namespace and a registry of configurations before it raises (C58, C59).
- The phrase of the empty value raises KeyError (C67).
- Profiles accept passphrases of one byte, and refused inputs leave a salt file behind (C82).
