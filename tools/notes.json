{
 "C05": {
  "note": "Release builds: every depth >= 64 rejects a valid stamp; wrong vector witness init(2,65)=[2]."
 },
 "C07": {
  "note": "PoP check needs the standard generator in the parameters (pixel_param always uses it); refuted otherwise."
 },
 "C49": {
  "note": "Comment 'zero or one' and the info string of spec.md are refuted by witnesses."
 },
 "C51": {
  "note": "A delegate that panics (vector too short) has already changed hpoly."
 },
 "C17": {
  "note": "Success is unconditional up to the 'prng not updated' assertion (as C08): that is the only other outcome."
 },
 "C18": {
  "note": "The exception allowed for malformed keys occurs: witness C18_any_key_equal_refuted."
 },
 "C21": {
  "note": "The documented behaviour is refuted for every reachable key at the last time stamp."
 },
 "C28": {
  "note": "Refuted for verify; proved for verify_aggregated (C23_wrong_pk_ciphersuite)."
 },
 "C44": {
  "note": "Expected completeness of validation refuted, generally and by witnesses."
 },
 "C52": {
  "note": "Signature equality on all fields is refuted."
 },
 "C54": {
  "note": "Holds on reachable keys; refuted in general."
 },
 "C56": {
  "note": "Refuted: the identity key accepts the identity signature."
 },
 "C30": {
  "note": "Depth > 32: witness of a reachable key that can not be saved."
 },
 "C34": {
  "note": "Documented pop behaviour refuted by C34_pop_must_be_compressed_refuted."
 },
 "C35": {
  "note": "Documented bound refuted at time = 2^32; true above."
 },
 "C36": {
  "note": "Secret keys: chunking only; an interruption at the vector length byte is an error (witness)."
 },
 "C38": {
  "note": "Depth <= 32 (see C30)."
 },
 "C39": {
  "note": "Documented digest refuted by witness; actual value, dependence on the blob only, and binding up to a hash collision proved."
 },
 "C42": {
  "note": "Infos given to the prng, and inputs of the message hash. The pop is a BLS signature (another hash, with its own prefix). Refuted for time stamps >= 2^32 (depth > 32)."
 },
 "C58": {
  "note": "Both differences shown by witnesses; the actual formulas are C41 and C42_keygen_infos."
 },
 "C55": {
  "note": "Strategies are linear combinations of the group elements in view (the proof of possession is not in view). Stronger than stated: exactly the future times and the queried signatures are reachable, and any other strategy succeeds only if one of the 3+d+n random exponents equals the single value the earlier ones leave to it."
 },
 "C59": {
  "note": "Same attacker as C55 without keys."
 },
 "C60": {
  "note": "Same attacker as C55 with one sub key."
 },
 "C47": {
  "note": "The encoding of points, HKDF and SHA-512 of the two sides are the same functions of env (they are dependencies of both). Witnesses: Python takes past and late targets and short seeds, which Rust refuses."
 },
 "C62": {
  "note": "The refuted expectation is shown for every list of usable keys, not by one witness. Proofs of possession are what excludes it; that the rogue key has none is a computational statement and not covered."
 },
 "C63": {
  "note": "Converse needs g2 to be the generator of the subgroup (it is for the default parameters)."
 },
 "C64": {
  "note": "Needs g2 not the identity. The positive part: if all but one are accepted, the last one is."
 },
 "C65": {
  "note": "The coefficients a, b depend on the three message scalars only."
 },
 "C66": {
  "note": "update, the checks and the reads agree for arbitrary key values; depth 64 and the time stamp 2^64-1 (on no reachable key) are shown to disagree."
 },
 "C67": {
  "note": "Stronger: the value of the signature and the reason for each error are given. The acceptance criterion needs the first sub key to carry the key's time stamp and its elements to be in the subgroup."
 },
 "C70": {
  "note": "The only other outcome is the panic of update, and then two hash inputs of the program's own prng steps collide or one hash is a padded salt (breaks, SpecColl.v). The example runs one step of the loop; a full run on the toy instance at depth 11 gives Ok with 252 files but takes too long for the checker."
 },
 "C73": {
  "note": "The refuted expectation (an update erases the key) is shown for every chain of updates."
 },
 "C75": {
  "note": "Holds for update and sign on every path; refuted for randomization called with a bad time stamp (tmp_sec left)."
 },
 "C76": {
  "note": "The comment of keygen is refuted: x and h^x stay in memory."
 },
 "C77": {
  "note": "Forward security against memory reading fails: attack proved for every such update."
 },
 "C78": {
  "note": "digest leaves the serialized key."
 },
 "C79": {
  "note": "Attack proved for every pair of signatures at one time."
 },
 "C80": {
  "note": "Equivalence: complete = validate + cover + vector equations + subgroup membership. The example key passes validate and fails after one update."
 },
 "C81": {
  "note": "Needs the second generator of the parameters to be the group's generator, as in the default parameters."
 },
 "C82": {
  "note": "Counts over hash outputs; the hash function itself is not modelled as random."
 },
 "C83": {
  "note": "Depth at most 32 (4-byte time stamps in the info strings)."
 },
 "C84": {
  "note": "Discharges the exception in C08, C17, C70, C72 and others; the example shows the panic for a constant hash function."
 },
 "C85": {
  "note": "On the 64-byte strings; the scalars are these modulo r (C82 counts how often two strings give one scalar)."
 },
 "C86": {
  "note": "What the tests fix (seeds, message, n = 16) is an argument; n is bounded by the last time stamp plus one."
 },
 "C87": {
  "note": "test_must_fails_mismatch is treated in C90."
 },
 "C88": {
  "note": "The _kat tests are not modelled (constants for the decoder of the dependency)."
 },
 "C89": {
  "note": "Of negative_test_pop the two parts on ciphersuites; negative_test_sk and test_sk_getter for ciphersuite 0 as in the tests."
 },
 "C90": {
  "note": "The test is not shown to pass for every argument (it does not: equal seeds or messages); the condition is exact."
 },
 "C91": {
  "note": "PubParam::init and default of the crate pixel_param are not in the repository; that they give the same values is what param.py checks by comparing files."
 },
 "C92": {
  "note": "bench_param and bench_curve.rs are not modelled. The drawn numbers are arguments; nothing is said about how likely they are."
 },
 "C93": {
  "note": "Selective target; the proof of possession is not part of the game; the signer of the game draws its scalars, the code hashes for them. DESIGN.md section 5."
 },
 "C94": {
  "note": "About control flow and results, not about running time. Reloading is excluded: what a decoder accepts depends on the points."
 },
 "C96": {
  "note": "The secrets of the other signers are given by the forger; C102 replaces this by proofs of possession. The message is fixed in advance, the time stamp is not."
 },
 "C97": {
  "note": "C97_next_step is the case in which the comment in src/secret_key.rs that an update draws zero or one random field elements is true; C49_zero_or_one_refuted shows it is not for jumps over several time stamps."
 },
 "C98": {
  "note": "The signer of the game draws the scalars of its answers; the code derives them from its prng with the same hash function, which is not part of the game (see C93_interface_answers). C98_all_coins drops the condition that the q hash values have different scalars and pays repeats_bound coins for it, at most q(q-1)/fr_modulus of all coins (C98_repeats_rare)."
 },
 "C99": {
  "note": "The info strings are arguments of the document's programs. spec.md puts the time into the update string and names two master key strings; the code's strings (code_texts) are used for agreement, C99_update_text_refuted and C99_master_text_refuted show that the printed ones differ. Serialization, parameter generation and HKDF texts of spec.md are compared elsewhere (C29-C31, C91, C95)."
 },
 "C100": {
  "note": "Points are printed by the pairing library; p1 and p2 are arbitrary functions. The derived Debug of pixel_sk (a pointer and a length), pixel_keys, PublicKey and ProofOfPossession is not modelled."
 },
 "C101": {
  "note": "A pointer is a block and an offset; a null pointer with length 0, which Rust's from_raw_parts forbids, cannot be written down in the model. Calls that panic leave the memory as it is. That a signature under a held key for another time stamp cannot be made is C93-C98; here only that the call panics."
 },
 "C102": {
  "note": "The BLS dependency is replaced by textbook BLS (with_points) over a hash to the curve answered by the game; C102_signatures_of_points shows that this satisfies env_laws. Keys and proofs outside the subgroups are not accepted there; the code gets them from deserialize, which checks this. As in C98 the signer draws the scalars of its answers. C102_without_proofs_refuted is the refutation for a verifier that skips validate."
 },
 "C103": {
  "note": "The coins counted are those for which the drawn values make up a hash function (clean): the signer's calls are at different places, the forger asked at none of them before it could know them, and no prng state repeats. The BLS dependency is textbook BLS as in C102. tb is the time of the break-in, 0 for none; the seed is at least 32 bytes long. C103_drawn_is_code: for such coins the game drawn value by value is the run of key_gen, update and sign_present."
 },
 "C104": {
  "note": "C104_few_lost needs at least one value of the second kind (nu >= 1) and a seed of at least 32 bytes, as key_gen has. A coin with which the run stops because the forger asks more questions than there are values is not a win in either game."
 },
 "C105": {
  "note": "Depth at most 32, because deeper keys cannot be saved (C30). The hash values are drawn in the run of the forger rewritten to update and sign_present (two_calls); C105_same_game holds for every hash function."
 },
 "C106": {
  "note": "Counted are the operations on points, comparisons, pairings and the talk with the forger, not the arithmetic of the solver with numbers, bytes and lists; the forger's own running time is its own. C106_all_coins bounds the forger of C105 by 2n questions for n calls, since a call is at most two of update and sign_present."
 },
 "C107": {
  "note": "The probability is over the key under attack, the parameters, hash values and seeds, all uniform; public parameters have known exponents to the solver only. Coins with which the drawn values are no hash function count as won by the forger. A run that needs more drawn values than there are does not count as won, so n, nb, nk, nu, q, p have to be at least what the forger and the signer use. The forger breaks in when it likes; a win with break-in time tb (0: none) is one in which it broke in at tb. How the values are drawn depends on tb, so the wins for all tb are summed."
 },
 "C108": {
  "note": "Says what the block of the Vec and freed blocks hold if nobody writes into them afterwards. How a Vec grows, whether realloc moves the block and whether dropping a Vec clears its spare slots are parameters; the place of the h-vector, which also lies in a slot, is left out, as its block is overwritten when a sub key is dropped."
 },
 "C109": {
  "note": "That zeroize of a point gives the identity and that a Vec is emptied is taken from the crates (the test in src/test/pixel_zeroize.rs relies on it). The default public key and proof have ciphersuite 0. C109_default_public_key_rejected_refuted refutes that a default public key is rejected."
 },
 "C110": {
  "note": "C110_one_signer holds for any dependency record and any hash functions. In C110_advantage the seeds of the other signers are fixed lists, the one of the signer under attack is drawn; as in C107 the wins for all times of the first break-in are summed and coins that make up no hash function count as won. The forger of the game with one signer gives up when the parameters have another depth than d, which does not happen in the game."
 },
 "C111": {
  "note": "Says what freed blocks hold if nobody writes into them afterwards. How a Vec<u8> grows (for what is left: at most by doubling, as std does) and whether realloc moves the block are parameters. A point is appended to its buffer at once. The stack and the writer of the caller are not modelled."
 },
 "C112": {
  "note": "Operations are those the code of the crate calls on group elements. How long one of them takes, in particular mul_assign for different scalars, what they do inside the crates, hashing, memory and field operations are not covered. A panic of update (the state of the prng repeats) ends the sequence early and is excluded. C112_keygen, _verify, _aggregate and _validate speak about calls that succeed (for verify and validate: answer true)."
 },
 "C113": {
  "note": "The parameters are assumed well formed (pp_ok). update_result, delegate_result and randomization_result (SpecAny.v) list the cases; the theorems are equivalences, so the cases exclude each other and one always applies. C113_validate speaks about keys whose points are in the subgroups (deserialized keys are)."
 },
 "C114": {
  "note": "Says what freed blocks hold if nobody writes into them afterwards. How a Vec grows and whether realloc moves the block are parameters (separate ones for the two kinds of vectors). The stack, the reader and the h-vectors' blocks after reading are not modelled here."
 },
 "C115": {
  "note": "The block of each h-vector is modelled slot by slot in HvMem.v; what std does on remove(0) and clone, and what drop does with spare slots (parameter clears), is stated there. The content of freed blocks after reuse by the allocator and copies on the stack are not modelled. The positive part: nothing of the removed entries survives in the block, and the live key's spare slots hold only a point which the key has anyway. The negative part (C115_past_signed) needs the rest of an old sub key, which C108 shows may be left too."
 },
 "C116": {
  "note": "the bilinear, non-degenerate pairing of env_laws; the pair with the identity is not made by the library's own sign calls (except when the randomness hits the value that cancels), it needs the exponent, which the library wipes after key generation"
 },
 "C117": {
  "note": "the parameters are those of param.py's scheme as specified in SpecParam.v (C117_parameters); all other theorems hold for any parameters. Updating a key with other parameters than its own is not part of this property (C113 says what update does with any key)"
 },
 "C118": {
  "note": "the stream has no tags; what happens when a blob is read as another kind depends on the encodings of the groups, which are abstract. Readers are calm because a secret key is misread when the read of its length byte is interrupted (C36)"
 },
 "C119": {
  "note": "pixel_param is another crate; its constructor and deserializer decide which lists can occur, and the model takes them as any list. With too few generators updates are not described (C113 describes them for enough generators)"
 },
 "C120": {
  "note": "the strings are whole inputs of SHA-512 as in RFC 2104 and RFC 5869; the crates hash the two key blocks of HMAC once and copy the state. What the BLS dependency hashes for the proof of possession is not recorded"
 },
 "C121": {
  "note": "the objects are used through their position; whether the proof of possession of one signer is accepted for another's key is up to the BLS dependency and not predicted"
 },
 "C122": {
  "note": "pointers and lengths are in FfiMem.v (C73, C101), here buffers are byte strings"
 },
 "C123": {
  "note": "whether the result can be read back is stated for keys whose points lie in the subgroups; keys made by the library have at most as many sub keys as the depth and are never cut"
 },
 "C124": {
  "note": "filecmp.cmp compares contents (its shortcut on equal size and modification time is not modelled); plain files and console output left out; hypothesis: the Rust generator finished (C70 says when)"
 },
 "C125": {
  "note": "the text of the plain files and the bytes of pp.serialize (a dependency) are arbitrary arguments; the latter are written by one write_all"
 },
 "C126": {
  "note": "except when the 'prng not updated' assertion breaks SHA-512 (C84); builds succeed and Python finds its libraries; failures of the file system in Python and C other than a missing directory are not modelled"
 },
 "C127": {
  "note": "the curve library reads an uncompressed point in two steps; here the decoder gets all its bytes at once"
 },
 "C128": {
  "note": "only the buffers of the serialization and the Vec handed out; blocks freed by reading and updating the key are in C114 and C115"
 },
 "C129": {
  "note": "the values the closures drop are returned by the model"
 },
 "C130": {
  "note": "heap only; the stack is in C74-C79. The spare slots of a key just read were never written and are left out"
 },
 "C131": {
  "note": "heap only; the stack is in C74-C79. Buffers of public data are left out"
 },
 "C132": {
  "note": "stack only; the heap is in C114. Cells later overwritten by other calls are counted, and the stack of the point deserialization is left out"
 },
 "C133": {
  "note": "cells that later calls may overwrite are counted; heap in C131; unwinding and the caller's own memory are left out"
 },
 "C134": {
  "note": "cells that later calls may overwrite are counted; the Vec of a reload is the caller's and not counted; the cells of panicking steps are only said to exist"
 }
}