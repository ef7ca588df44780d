# Design of the formal model of algorand/pixel

Everything is Rocq (Coq 8.16.1) under `rocq/theories/`.  The model is written by
hand from the text of `/repo`; each definition cites file and lines.

## 1. How Rust is represented

* `res A := Ok a | Err e | Panic p`.  `Result<_,String>` errors stay data (one
  constructor per message), every panic site (overflow, index, assert, unwrap) is an
  explicit `Panic`.
* A method on `&mut self` is a function returning `(result, state afterwards)`, so a
  state changed before an error is visible.
* `u64` is `N`; `+`, `-`, `*`, `<<` are written `add64`, `sub64`, `mul64`, `shl64`
  with a build `mode` argument: `Debug` panics on overflow, `Release` wraps (shift
  amount mod 64).  Lengths and indices (`usize`) are `nat`.  `as u8` is `mod 256`.
* Bytes are `N` below 256, byte strings are `list N`.
* Groups, pairing, point codecs, SHA-512 and the BLS signature used for the proof of
  possession are dependencies not in `/repo`.  They are the fields of one record
  `env`; what is assumed of them is the record `env_laws E : Prop`.  A theorem has the
  form `forall E, env_laws E -> ...`; no axiom is declared.  A concrete instance
  (`toy`, prime order = the BLS12-381 scalar modulus, with non-subgroup points,
  fixed-length codecs and a real SHA-512) is built and `env_laws toy` is proved, so
  the hypotheses are satisfiable and every definition can be run.
* A `Read` is a list of events (a chunk, an interruption, a failure); `read` and
  `read_exact` follow std.  A `Write` is a list of events (accept n bytes, interrupt,
  fail); `write_all` follows std.
* `zeroize` and what calls leave in memory are modelled separately (Hygiene.v): each
  function again, with its secret local variables as named cells of a frame; when a call
  returns, the cells not cleared become leftovers.  `println!`, derived `Debug`
  and memory layout are not modelled (Debug.v and FfiMem.v model the printed texts that are
  written by hand and the memory the C interface shares with its caller).

## 2. Files

| file | contents |
|---|---|
| Base.v | res, machine integers, byte strings |
| Env.v | dependency record and laws |
| Time.v | src/time.rs |
| Hkdf.v, Prng.v | HMAC/HKDF over an abstract SHA-512; src/prng.rs, domain_sep.rs |
| SubKey.v, SecretKey.v, Keys.v, Sig.v | pixel_param accessors and src/subkeys.rs, src/secret_key.rs, public_key.rs/pop.rs/key_pair.rs, src/sig.rs |
| IO.v, Serdes.v | readers/writers; src/serdes.rs |
| Api.v | src/lib.rs trait and histories of calls |
| Ffi.v | src/ffi.rs on byte buffers |
| Python.v | pixel-python |
| Param.v | pixel-python/param.py |
| Doc.v | the algorithms of spec.md, as a specification |
| Debug.v | the Debug implementations of src/prng.rs, subkeys.rs, secret_key.rs, sig.rs, ffi.rs |
| Bench.v | benches/benchmarks (not bench_param; bench_curve.rs is in BenchCurve.v) |
| BenchCurve.v | benches/benchmarks/bench_curve.rs |
| Programs.v | test_vector/src/main.rs, pixel-python/test_vector.py, c_wrapper/test.c, test_buf/test_vector.py |
| Scripts.v | the scripts of pixel-python/{keygen,keyupdate,sig,test_vector}.py, with the files written until an exception |
| GenFs.v | test_vector/src/main.rs with all its files and a file system that may fail |
| MakeTest.v | Makefile 12-39 (the test targets and clean) |
| KatTests.v | src/test/serdes.rs 250-712 (the tests on fixed strings) |
| FfiBuf.v | src/ffi.rs 86-142, 227-275 once more, with the blocks of the secret key's buffer, shrink_to_fit and its assertion |
| CallMem.v | src/ffi.rs 227-275 once more, with all heap blocks the call frees (reading, update, serialization, hand-over) |
| SessionMem.v | src/ffi.rs 86-183 once more: c_keygen and c_sign_present with the heap blocks they free |
| ReadStack.v | src/serdes.rs 250-284, 334-365 once more, with the seed and the points in local variables (stack) |
| CallStack.v | src/ffi.rs 86-183, 227-275 once more: c_keygen, c_sign_present, c_sk_update with what is left on the stack |
| HistStack.v | src/sig.rs 70-160 once more: sign, sign_then_update, and the histories of Api.v with what is left on the stack |
| FfiMem.v | src/ffi.rs with pointers, lengths and the memory of the caller |
| Hygiene.v | the secret-handling functions again, with local variables, zeroize and leftovers |
| Default.v | derived Default and Zeroize |
| VecMem.v | SecretKey::update again, with the memory block of its Vec of sub keys |
| BufMem.v | serialization of secret keys again, with the memory blocks of its buffers |
| ReadMem.v | deserialization of secret keys again, with the memory blocks of its two kinds of Vec |
| HvMem.v | delegate and update again, with the memory blocks of the h-vectors (spare slots, freed blocks) |
| OpTrace.v | key generation, update, signing, verification, aggregation and validation again, each with the sequence of its operations in the groups |
| HashTrace.v | key generation, update, signing and verification again, with the hash function as a parameter and each of its inputs recorded |
| World.v | programs over the whole interface: several signers, signatures, public keys and proofs, each call with the objects it uses |
| CWorld.v | programs over the C interface, where everything the caller holds is bytes |
| Spec*.v | the specifications used in theorem statements |
| NMod.v, *Facts.v, *Props.v | proofs; the last lemma layer has exactly the statements of the theorems |
| Primality.v | the BLS12-381 scalar modulus is prime (Pocklington certificate) |
| Sha512.v, Toy.v, ToyRun.v, Wit*.v | executable SHA-512, the concrete instance `toy`, computed keys, computed witnesses |
| Properties_*.v | the property theorems, each closed by `exact`, with `Print Assumptions`, and examples |

## 3. Plan per property

Specification side: the time tree is `preorder d`, a list of paths built by recursion
on the depth; subtree of a node = paths extending it; `tiling d t l` says the list of
stamps l partitions t..2^d-1 into consecutive subtrees.  An honest sub key is given in
closed form (`g2^r, h^x F(t)^r, h_i^r`).  HKDF formulas are given from RFC 5869.

| id | modelled | proof |
|---|---|---|
| C01-C05 | time.rs with both build modes | induction on depth; bijection path<->stamp; gamma list by tiling; refutation witness for depth 65 in release |
| C06,C07 | key_pair.rs, public_key.rs | case analysis; bilinearity; law of the BLS dependency |
| C08-C10, C12-C15, C49, C50 | secret_key.rs update, find_ancestor, loops | invariant "sub keys = honest sub keys tiling from sk.time" preserved by every call; induction on the history |
| C11 | update for arbitrary keys | model returns the state; shown equal to the old one on Err and Panic |
| C16-C21 | sig.rs | invariant + bilinearity; history induction |
| C22-C24 | aggregate / verify_aggregated | induction on lists, commutativity |
| C25-C28 | verify | pairing laws: non-degeneracy in prime order |
| C29-C38 | serdes.rs on readers / writers | codec laws; induction on schedules |
| C39 | digest | computation; refutation in the toy instance |
| C40-C42 | prng.rs, domain_sep.rs | os2ip as limbs; HKDF length; prefix-freeness of constants |
| C43,C44 | validate | pairing laws; refutation witnesses |
| C45,C46 | ffi.rs on byte buffers | reduction to the above |
| C47 | pixel-python as Gallina | simulation between the two models |
| C48 | spec.md's update | equality on reachable keys |
| C51-C54 | as in the code | laws / witnesses |
| C55 | linear strategies over formal exponents | polynomial identity argument: coefficient of each r_j |
| C56-C60 | as in the code; linear strategies | laws, witnesses, linear algebra over Z/r |
| C61-C65, C67, C68 | as in the code | bilinearity, sums over lists, inverses modulo the prime r |
| C66 | both build modes | every arithmetic site computes the same in both modes for depth < 64 |
| C69 | init_from_randomization | computation |
| C70-C72 | the programs writing and comparing test vectors | the loops by induction over the indices, each step by the theorems on update, sign, serialize and pixel-python |
| C73 | calls of ffi.rs on a memory of blocks | case analysis per call; induction on the chain of updates |
| C74-C79 | local variables and zeroize | equality with the plain model; exact list of leftovers by computation in the frame; attacks by the group laws |
| C80 | validate, update, sign on arbitrary key values | the complete check is equivalent to the honest closed form; history induction |
| C81 | sign_fr, randomization | closed forms; uniqueness of the exponent modulo the prime r |
| C83-C85 | prng.rs, update, sign | HMAC with keys of 64 bytes is injective up to a collision among its queries; the chain of states is read backwards |
| C90 | acceptance under other keys, parameters and messages; test_must_fails_mismatch | verify_spec for both, injectivity of the pairing |
| C86-C89 | the programs of src/test | the loops by induction, each step by the theorems above; the panic by C84 |
| C91 | pixel-python/param.py | closed form; instantiation of the theorems above without hypotheses on the parameters |
| C92 | benches/benchmarks | as C86-C89, with the drawn times as arguments; an always-pass statement refuted |
| C93 | verify, sub keys and signatures of the interface as a game against a forger | the solver programs its parameters with the coordinates of the target; answers differ from the real ones by a shift of their scalar, so a bijection of coins carries one game into the other; a forgery cancels to the solution |
| C94 | update, sign and the rest, in two environments at once | each function commutes with forgetting the group elements, that is with running it in an environment whose groups have one element |
| C95 | the helpers below the interface | closed forms on all arguments; HKDF by induction on the blocks |
| C96 | aggregates as forgeries, time stamp chosen at the end | an accepted aggregate minus the known secrets, divided by the number of occurrences, is an accepted signature; then C93 and the pigeonhole principle over the time stamps |
| C97 | nodes and size of a key, update to the next time stamp | the key is v and its right siblings by uniqueness of tilings; sizes summed along the path; one draw or none for one step |
| C98 | forgeries with the message chosen last, random oracle | the i-th hash input becomes message number i under a hash function made of the coins; then C96 per list of hash values, pigeon hole over time stamps and inputs |
| C99 | spec.md's algorithms | Doc.v against the model on good keys: gamma list by index = by left turns, loop over the front part below the delegator, pairing product by bilinearity |
| C100 | Debug texts | a reader for each text; then the attacks of C77 and C79 with the scalars computed from the text |
| C101 | keys and arrays in C memory | invariant over interleaved C steps; array elements by offset; C46 on the bytes found |
| C102 | proofs of possession against rogue keys | points behind proofs are known multiples of h, so a proof divided by the multiple is h to the other signer's secret; take them out as in C96, then C98 for the family of forgers indexed by the multiples; counting of coins with zero points |
| C103 | the code's key_gen, update and sign_present as the signer of the game, break-in | hash values drawn lazily from lists; for clean coins the lazily drawn run is the run of the code under the hash function made of them; scalars of sub keys that are dropped or not yet drawn are uniform, so the run is one of the game of C102, with a forger that signs for itself after reaching the time of the break-in; injectivity of the map of coins |
| C104 | the game of C103 over all coins | up to the question of the forger that could hit a value drawn for the signer, the run does not depend on that value (replacing it leaves the earlier run unchanged), so at most as many values are hit as questions were asked; repeated values by the position of the second; fibres of the map that leaves one value out |
| C105 | the game with all calls of Api.v | every call is a sequence of update and sign_present whose length depends on the time stamp of the key only; induction on the forger with reachable keys |
| C106 | - (the solver of C103-C105 as a program) | the program refines the solver step by step, with one bound per piece; induction on how often the forger speaks |
| C107 | the game of C105 with the key and the break-in time drawn | the map of C103 from winning to solving coins keeps key, break-in time and guesses, so it is one-to-one on all of them together; counting by products of lists; Bernoulli's inequality for the sampling by division |
| C108 | update with the block of its Vec (VecMem.v) | the loop inserts behind the delegator, so each enlargement frees a block that holds it; capacities by iteration; the first new sub key shares the delegator's randomness |
| C109 | Default.v, histories of Api.v | a call on a key without sub keys returns an error and the same key; induction over the history |
| C110 | the game of C105 with several signers | the code of the other signers with its hash calls turned into questions (a free monad), shown to answer as the code does; run by the forger itself; induction on the forger; counting the questions |
| C111 | serialization with the blocks of its Vec<u8> (BufMem.v) | each append keeps the bytes and frees at most the bytes before it; the two enlargements that std's doubling cannot avoid; reading the block by the roundtrip of the key with one sub key |
| C112 | the calls with the list of their group operations (OpTrace.v) | results do not change (for any key); the loop of update does one delegation per new node; new nodes and the delegator are found from the two paths; each right child is made only when the subtree of its left sibling is entered, so the costs of a history add up over the nodes passed |
| C113 | update, delegate, randomization, validate on keys of any shape | the scan of the kept sub keys does not change while new ones are inserted before them, and no node of the gamma list is deeper than the first; so the loop is a run of makeable nodes followed by one of five endings; each listed case is computed, and one of them always applies |
| C114 | deserialization with the blocks of its Vecs (ReadMem.v) | a push frees the block exactly at the capacities reached, so the freed blocks are the beginnings at these; the delegator of an update is unique in a sorted key and shares its randomness with the first new sub key, so subtracting the turns along the kept beginning gives it back |
| C115 | delegate and update with the blocks of the h-vectors (HvMem.v) | induction over the removals: each leaves a copy of the last entry; the loop of update keeps that all blocks made have the delegator's size and only its last entry in spare slots; for reachable keys the delegator shares its randomness with the first new sub key, so their last entries agree |
| C116 | verify and verify_aggregated (Sig.v) | bilinearity and non-degeneracy in the first argument cancel the common factor; the shifted key adds one factor pairing(sig_1, c h) to the equation; the pair with the identity solves the equation for every message |
| C117 | key_gen, sign_present, delegate, verify under two sets of parameters (Keys.v, Sig.v, SubKey.v) | the node values of the shallower set are those of the deeper one, so a cut sub key is an honest one of the shallower set; the tiling gives the sub key above a node; for other parameters sign adds k F' to r F and the pairing equation is split by bilinearity |
| C118 | serializers and deserializers (Serdes.v, IO.v) in sequence | deserializers as functions on byte strings; these do not look ahead (the length byte read as 0 at the end of the input is followed by a point that is missing), so a parsed prefix would be the whole blob |
| C119 | key_gen, sign_present, verify, verify_aggregated, validate, update with any list of generators (no `pp_ok`) | the loops read only places up to `depth` of the list, for a sub key whose h-vector fits; delegation keeps this; signing and verification always read place `depth` last |
| C120 | the calls with the list of the strings they hash (HashTrace.v), for any hash function | one predicate for result, agreement and lengths that composes over the calls; re-randomized sub keys are counted by comparing with the traces of C112 |
| C121 | programs of any number of signers (World.v) against a bookkeeper of times and of who signed what | one invariant: every key and signature of the program has a closed form in the secrets and the randomness; verification, validation and aggregation read it off |
| C122 | programs of C calls (CWorld.v) against World.v | one step: the invariant of C121 makes all objects representable, so reading a buffer gives back the object; then induction over the program |
| C123 | the C functions on any bytes | what was read has bounded time stamps and lengths, so the result can be written; then C113 and C67. The key that loses its sub keys: 255 sub keys, three made for one |
| C124 | the scripts of pixel-python | each loop writes and compares one file at a time: composition of this, with the simulation of C47 giving the contents |
| C125 | the generator on a failing file system | every serializer is checks followed by one write_all, so saving a file is one step that is done, cut or refused; composition over the program; without failures simulation with the model of C70 |
| C126 | the test targets of the Makefile | composition of C70 - C72, C124 and C125 on a tree of directories; make clean by cases |
| C127 | the serialisation tests on fixed strings | decoders as exact conditions on slices of the string; the loops as conjunctions of these |
| C128 | memory of the secret keys handed to C | freed blocks as state; the blocks of a serialization from C111; induction on the updates |
| C129 | benchmarks of the curve | induction on the runs, with the counter as run number modulo the samples |
| C130 | all freed memory of c_sk_update | product of the models of C108, C114, C115 and C128; frame lemmas for allocators that move nothing |
| C131 | freed memory of a C caller's session | C130's product model for each call; induction on the session; delegation split of C114 for the forgery |
| C132 | stack after reading a secret key | product model with frames; the last vector entry of an honest sub key is the delegation to the message level |
| C133 | stack of a C caller's session | sequencing lemmas for the cells of C75-C78 and C132; induction on the session; splitting it at a call |
| C134 | stack of a key's history in Rust | a simulation between steps with and without memory; exact cells from C75-C78 and C132; induction on the history |
| C82 | os2ip_mod_p | all byte strings in order are 0..256^n-1; counting residues by induction |

Properties whose natural full statement is false of the code are proved as
`..._refuted` with a computed witness, next to the strongest true variant.

## 4. Trusted base

* Coq's kernel (and its VM, used by `vm_compute`/`vm_cast_no_check` in examples and in
  the primality certificate).
* Axioms: none.  `Print Assumptions` says "Closed under the global context" for every
  theorem.
* The dependencies, as hypothesis `env_laws E` of the theorems (Env.v): PixelG1 and
  PixelG2 are abelian groups with integer multiples, subgroups of order r are closed, the
  generator generates its subgroup, the pairing is bilinear and non-degenerate on the
  subgroups, the multi-pairing is the product of the pairings, point codecs have fixed
  length, round-trip on the subgroups and are canonical in compressed form, SHA-512 has
  64 bytes of output, and the BLS signature of the proof of possession verifies (and is a
  point of the subgroup).  `toy_laws` proves that these hypotheses can be met.
* `pp_ok pp` for the public parameters: depth 1..63, more than depth points, all in the
  subgroups.  They come from the crate pixel_param (not in `/repo`); only its accessors
  are modelled.  C91: the parameters computed by pixel-python/param.py meet all of this.  Where a property needs more (depth <= 32, g2 = generator, ciphersuite
  supported) it is a hypothesis of the theorem.
* The reading of the source: Gallina written by hand from the text, no extraction and no
  run of the Rust or Python code.

## 5. What is modelled

All of src/time.rs, subkeys.rs, secret_key.rs, sig.rs, public_key.rs, pop.rs,
key_pair.rs, prng.rs, serdes.rs, domain_sep.rs, pixel_err.rs, the trait of lib.rs
except param_gen/param_default, ffi.rs on byte strings, the functions of
pixel-python/{prng,keygen,keyupdate,sig,param}.py, and the test programs of src/test
(exceptions: head of Tests.v).  Simplifications are said at the
definitions; the general ones:

* points are group elements, not coordinates, so `into_affine` and the choice of
  representative are invisible; scalars are natural numbers;
* `Vec` capacity, cloning and moves are invisible (but for update in VecMem.v, serialization in BufMem.v, deserialization in ReadMem.v and h-vectors in HvMem.v);
* what a caller does after a panic: the state is the one the call left (as with
  `catch_unwind`).

Not modelled: bench_param (a loop that calls pixel_param), timing (OpTrace.v lists the group operations of a call, not how long they take), threads, allocation failure, Python's printing, and everything inside the
dependencies.  Of the test vector programs: console output, the shortcut of filecmp.cmp for files
of equal size and modification time and, except for the Rust generator (GenFs.v), the parameter
files, the "plain" files and failures of the file system other than a missing directory (MakeTest.v).  Of ffi.rs: unwinding out of extern "C", and the memory Rust allocates and frees
within a call, but for the buffers of the secret key (FfiBuf.v, with the assertion that shrink_to_fit leaves
no spare capacity) and the whole of c_sk_update (CallMem.v), c_keygen and c_sign_present (SessionMem.v).  Of memory contents: Hygiene.v has the named variables and by-value
parameters that hold secrets in prng.rs, subkeys.rs, key_pair.rs, secret_key.rs (update,
digest), sig.rs (sign) and serdes.rs (writing secret keys); ReadStack.v
has those of reading them, CallStack.v puts both together for the C interface, HistStack.v for histories in Rust.  They do not have compiler temporaries,
registers, copies made by moves, the insides of the dependencies, or reuse of the stack by
later calls.  VecMem.v has the block of the Vec of sub keys during update, with the allocator as a
parameter; the blocks of the h-vectors, the stack, and what is written into freed blocks later are
not there.  BufMem.v has the blocks of the buffers of the serialization in the same way, ReadMem.v those of the vectors that a deserialization pushes to, HvMem.v those of the h-vectors in delegate and update (the spare slots that `remove(0)` leaves behind).  Fr and the points are Copy types without destructor, Vec and arrays are
freed without being overwritten.

Computational security: C93 is a reduction, not a bound on probabilities.  A forger is a
strategy tree of questions and answers (its running time is not measured; the solver plays it once).
The target time stamp and message are chosen before the parameters (selective security);
the target message's scalar must not be asked for at the target time, so a collision of the
message hash is not a forgery here.  The signer of the game draws the scalar of each answer
uniformly, the code derives it from its prng by hashing; C93_interface_answers says that
what the code returns is an answer of the game for some scalar.  The proof of possession is
not part of the game.  C96 lets the time stamp be chosen last, at the cost of a factor 2^d - 1,
and takes aggregates as forgeries if the forger names the secrets of the other signers.
C98 lets the message be chosen last too, with the hash values of messages as coins of the game
(random oracle), a factor q for the number of hash questions and the birthday bound for equal
scalars (C98_all_coins, C98_repeats_rare).  C102 brings the proofs of possession into the game:
the forger gets the proof of the key under attack and must give an accepted one for every key
of its aggregate, whose secrets it need not name.  There the BLS signatures of the dependency
are taken to be the textbook ones (secret times hash to the curve, one equation of pairings,
points in the subgroups), and the hash to the curve is a second random oracle.
C103 replaces the signer of the game by the code: key_gen from a seed, update and sign_present
with all scalars derived by the prng, results including errors shown to the forger, and one
break-in that gives it the secret key with the prng state.  All hash calls (message hash, HMAC
inside the prng) go to one random oracle whose values are drawn from lists of coins when first
needed.  The claim counts clean coins: those for which the values drawn make up a function
(the signer's calls are at different places and the forger did not ask there) and no prng state
repeats.  C104 counts all coins: those that are not clean count as won by the forger, and are few.
C105 gives the forger all calls of the trait that take the secret key.
C106 writes the solver as a program of a machine that reaches points only through counted steps
(group operations, comparison, pairing, talk with the forger), and bounds the count.  Computing
with numbers, bytes and lists is not counted there.  C107 draws the key, the challenge and the
guesses too, so that one program is the solver, and states the result as a bound on probabilities
(shares of lists of all coins, in Q).  C110 adds other signers that run the code; the forger can run
them itself, so nothing new is drawn for them.

Not expressible here: timing, erasure of memory below the level of Hygiene.v.  C55, C59 and
C60 cover attackers that use the group operations only, with the scalars as unknowns; the
proof of possession is not part of their view.
