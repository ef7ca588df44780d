import json
P=[]
def p(title,statement,quant,why,anchors):
    P.append(dict(id="C%02d"%(len(P)+1),title=title,statement=statement,quantifier=quant,why_tests_cant=why,anchors=anchors))

p("Time stamps are the pre-order numbering of the time tree",
  "For every depth d with 1<=d<=63, TimeVec::init(t,d) succeeds exactly when 1<=t<=2^d-1, and then the vector is the t-th node of the depth-d binary tree in pre-order (1 = left child, 2 = right child). Out-of-range stamps give an Err, never a panic, in debug and release builds.",
  "every depth 1..63, every u64 time stamp, both build modes",
  "2^63 time stamps per depth; the repo's tests try 1..64 at depth 32",
  ["src/time.rs: TimeVec::init, time_to_vec"])
p("Time stamp / time vector round trip",
  "Converting a time stamp to a vector and back gives the same stamp, distinct stamps have distinct vectors, and every TimeVec that the API returns (init, gamma_list) has a `time` field that is the number of its `vec` field.",
  "every depth 1..63 and time stamp",
  "unbounded domain; off-by-one errors live at subtree boundaries",
  ["src/time.rs: time_to_vec, vec_to_time, gamma_list"])
p("Gamma list covers exactly the present and the future",
  "gamma_list of time t at depth d lists time stamps in strictly increasing order starting with t, has at most d entries, and each t' in t..2^d-1 is equal to or below exactly one entry, while no t' < t is equal to or below any entry.",
  "every depth 1..63, every time stamp t, every other time stamp t'",
  "quantifies over pairs of time stamps of a 2^63 tree",
  ["src/time.rs: gamma_list"])
p("is_prefix decides strict ancestry",
  "For two TimeVecs of the same depth, a.is_prefix(b) is true exactly when b's time is a strict descendant of a's, i.e. a < b <= a + (size of a's subtree) - 1.",
  "every depth 1..63 and every pair of time stamps",
  "pairs over an exponential domain",
  ["src/time.rs: TimeVec::is_prefix"])
p("Unsupported depths",
  "Depth 0 is always an Err. For depth >= 64 a debug build panics on shift overflow; a release build silently wraps and returns a wrong vector for some stamps (the claim 'init succeeds only with the correct vector' is false there).",
  "every depth 0 and >= 64, every stamp",
  "depends on build mode; no test uses depth >= 64",
  ["src/time.rs: time_to_vec, vec_to_time"])
p("Key generation succeeds exactly on good inputs",
  "key_gen(seed, pp) returns Ok exactly when the seed has at least 32 bytes and pp's ciphersuite is 0 or 1; otherwise it returns the documented error; it never panics. The key has time stamp 1, one sub key, and pp's ciphersuite; pk and pop carry the same ciphersuite.",
  "every seed and parameter set",
  "all byte strings of all lengths",
  ["src/key_pair.rs: KeyPair::keygen, master_key_gen", "src/lib.rs: key_gen"])
p("Generated keys are mutually consistent",
  "For every successful key_gen, verify_pop(pk,pop) is true and sk.validate(pk,pp) is true. verify_pop(pk,pop) is true exactly if the ciphersuite of the key is supported, that of the pop is the same, and the pop is a BLS signature, under the key, of the POP domain string followed by the bytes of the key.",
  "every seed and well-formed parameter set",
  "tests use a handful of fixed seeds",
  ["src/key_pair.rs", "src/public_key.rs: validate", "src/secret_key.rs: init, validate", "src/subkeys.rs: init, validate"])
p("Update succeeds exactly for strictly later, in-range time stamps",
  "For any key obtained from key_gen by any history of API calls, update(pp,t,seed) returns Ok exactly when sk.time() < t <= 2^depth-1 (and the ciphersuites match); otherwise Err(time stamp)/Err(ciphersuite). The only other possible outcome is the 'prng not updated' assertion, reachable only if HKDF returns the very seed it started from.",
  "every reachable key, target time, update seed",
  "needs every update history; index arithmetic in the delegation loop could panic on rare shapes",
  ["src/secret_key.rs: update, find_ancestor", "src/subkeys.rs: delegate, randomization"])
p("Updated key is exactly the key for the target time",
  "After a successful update to t, sk.time()=t, and the sub keys' time stamps are exactly the gamma list of t: increasing, first one is t, tiling t..2^depth-1.",
  "every reachable key and target time",
  "every (source,target) pair and every update history",
  ["src/secret_key.rs: update"])
p("Every history of updates yields a valid key",
  "After any sequence of update / sign / sign_present / sign_then_update / save-and-reload calls (successful or failing) starting from key_gen, sk.validate(pk,pp) is true.",
  "every finite sequence of operations with any arguments",
  "unbounded histories",
  ["src/secret_key.rs: update, validate", "src/sig.rs"])
p("Failed update leaves the key untouched",
  "If update returns Err or panics, the secret key is unchanged in every field. Holds even for malformed keys.",
  "every secret key value (well-formed or not), parameter set, target and seed",
  "all failure points, including keys no test builds",
  ["src/secret_key.rs: update"])
p("Key time never goes back",
  "Along any history of operations the key's time stamp never decreases, and it increases exactly when an operation advances it.",
  "every history",
  "unbounded histories",
  ["src/secret_key.rs: update", "src/sig.rs: sign, sign_then_update"])
p("Forward security, structural part",
  "After any history, no sub key held by the secret key is for a time stamp smaller than sk.time(), nor for an ancestor of such a time stamp: delegating any held sub key to a past time stamp is rejected.",
  "every history, every past time stamp, every held sub key",
  "quantifies over all past time stamps and histories",
  ["src/secret_key.rs: update", "src/subkeys.rs: delegate"])
p("Structure of an updated key does not depend on the path",
  "Two update histories of the same key that end at the same time stamp give keys with the same time stamps, the same number of sub keys, the same sub key vector lengths and the same serialized size (they may differ in randomness only).",
  "every pair of update paths",
  "exponentially many paths",
  ["src/secret_key.rs: update, size"])
p("Sub keys not below the delegator are carried over unchanged",
  "An update only replaces the sub key that covers the target time; every later sub key is kept bit for bit, every earlier one is removed.",
  "every reachable key and target time",
  "every (source,target) shape",
  ["src/secret_key.rs: update"])
p("Signatures verify",
  "For any key reached from key_gen by any history, any signature that sign, sign_present or sign_then_update returns for message msg verifies under the matching public key and msg, and carries the requested time stamp and ciphersuite.",
  "every history, message, seed, target time",
  "unbounded",
  ["src/sig.rs: sign_bytes, sign_fr, verify_bytes, verify_fr"])
p("Signing succeeds whenever the time stamp is not past",
  "For any reachable key sign(t) with sk.time() <= t <= 2^depth-1 returns Ok, sign_present(t) returns Ok exactly if t = sk.time(); a past time stamp is rejected with the time stamp error and the key stays unchanged.",
  "every reachable key, message, time stamp",
  "unbounded",
  ["src/sig.rs: sign, sign_present"])
p("sign is update followed by sign_present",
  "sign(sk,t,msg,seed) with t in the future has the same result and final key as update(sk,t,seed) followed by sign_present(sk,t,msg), for every reachable key. For arbitrary (malformed) keys the final key is still the same and the results can only differ in that sign panics where sign_present returns the time stamp error.",
  "every secret key value and arguments",
  "all keys and arguments",
  ["src/sig.rs: sign"])
p("Signing for the present is deterministic and read-only",
  "sign_present never changes the key; removing or repeating sign_present calls anywhere in a history changes neither the final key nor any other call's result; equal messages get equal signatures.",
  "every history and message",
  "requires all interleavings",
  ["src/sig.rs: sign_present, sign_bytes", "src/prng.rs: sample"])
p("sign_then_update gives at most one signature per time stamp",
  "In any history that signs only through sign_then_update, no two successful calls have the same time stamp; each success advances the key by exactly one. For every key, malformed ones included, the call is sign_present followed by update to the next time stamp, so a failure to sign leaves the key as it is.",
  "every history; every secret key value",
  "unbounded histories",
  ["src/sig.rs: sign_then_update"])
p("sign_then_update at the last time stamp",
  "The documented behaviour (an error only if the time stamp does not match the key) is false at t = 2^depth-1: the call signs, then fails to update, and returns Err, although sign_present with the same arguments succeeds. The key is unchanged.",
  "every reachable key at the last time stamp",
  "needs a key at time 2^32-1",
  ["src/sig.rs: sign_then_update"])
p("Aggregate of valid signatures verifies",
  "For any non-empty list of signers (repetitions allowed) whose signatures on one message at one time stamp verify individually, aggregate_without_validate returns Ok and verify_aggregated accepts it for the corresponding list of public keys.",
  "every list length, signer, message and time stamp",
  "unbounded lists",
  ["src/sig.rs: aggregate_without_validate, verify_bytes_aggregated"])
p("Aggregation input checks",
  "Aggregation of a non-empty list returns Ok exactly when all ciphersuites and all time stamps are equal; the result has them. verify_aggregated is false if any ciphersuite differs. Both panic on the empty list rather than returning an error.",
  "every list of signatures / public keys",
  "unbounded lists",
  ["src/sig.rs: aggregate_without_validate, verify_bytes_aggregated"])
p("Aggregation is order independent and associative",
  "Permuting the signature list (or the public key list) does not change the aggregate (or the verification result), and aggregating aggregates equals aggregating the concatenation.",
  "every list and permutation",
  "factorially many orders",
  ["src/sig.rs: aggregate_without_validate, verify_bytes_aggregated"])
p("Verification decides the Pixel equation",
  "verify returns true exactly when pp's ciphersuite is valid and equals the signature's, both components are in the prime-order subgroup, the time stamp is in range, and e(g2,sigma2) = e(sigma1, h0*prod hi^ti*hd^m) * e(pk,h).",
  "every signature object, public key, parameter set and message",
  "all group elements, including malformed ones",
  ["src/sig.rs: verify_bytes, verify_fr"])
p("Second component of a signature is unique",
  "For a given public key, message, time stamp and first component, at most one second component is accepted; for an honest key, an accepted signature is of the form (g2^s, h^x * F^s) where F is the public hash of time and message.",
  "every pair of signatures",
  "all group elements",
  ["src/sig.rs: verify_fr"])
p("A signature is bound to its message and time",
  "A signature with a non-identity first component that verifies for (pk,time,msg) verifies for no message with a different hash, and relabelling it with another time stamp is accepted only if the public values h0*prod hi^ti of the two times coincide.",
  "every signature, pair of messages, pair of times",
  "all group elements and messages",
  ["src/sig.rs: verify_fr, hash_msg_into_fr"])
p("Verification ignores the public key's ciphersuite",
  "The expected property 'a public key whose ciphersuite differs from the parameters' never verifies a signature' is false for verify (it is true for verify_aggregated).",
  "every public key with a wrong ciphersuite byte",
  "no test mixes them",
  ["src/sig.rs: verify_bytes"])
p("Signature serialization round trip and size",
  "Every signature of a reachable key (any signature with valid ciphersuite and 1<=time<2^32) serializes in compressed form to exactly 149 bytes laid out as ciphersuite, big-endian time, sigma1, sigma2, and deserializes to itself, leaving the rest of the reader untouched.",
  "every signature",
  "all group elements and stamps",
  ["src/serdes.rs: Signature"])
p("Secret key serialization round trip and size",
  "Every reachable key (depth <= 32) serializes (compressed) to exactly size() = estimate_size(time,depth) bytes and deserializes to an equal key.",
  "every reachable key",
  "unbounded histories",
  ["src/serdes.rs: SecretKey, SubSecretKey", "src/secret_key.rs: size, estimate_size"])
p("Public key and proof of possession serialization",
  "Public keys and proofs of possession round trip; compressed sizes are 49 and 97 bytes.",
  "every key and pop, compressed or not",
  "all group elements",
  ["src/serdes.rs: PublicKey, ProofOfPossession"])
p("Deserializers never panic and check their input",
  "On any byte string every deserializer returns Ok or Err, never panics; it returns Err if the ciphersuite byte is unknown, a time stamp is zero, the number of sub keys is zero, or the input is shorter than the declared content.",
  "every byte string",
  "all inputs",
  ["src/serdes.rs"])
p("Compressed blobs are canonical",
  "If two byte strings deserialize (compressed) to the same signature / public key / secret key then the bytes consumed are the same: there is one representation per object.",
  "every pair of byte strings",
  "all pairs of inputs",
  ["src/serdes.rs"])
p("Uncompressed form of signatures and pops",
  "An uncompressed signature is always rejected by deserialize. The documented equivalent for proofs of possession ('returns an error if the pop is not compressed') is false: uncompressed pops are accepted.",
  "every byte string / every pop",
  "no test deserializes a pop with compressed=false",
  ["src/serdes.rs: Signature, ProofOfPossession"])
p("Sub key time stamp bound in serialization",
  "The documented claim 'SubSecretKey::serialize returns an error if the time stamp is greater than 2^32-1' is false: time = 2^32 serializes to a blob with time 0 that can not be read back. It is true for every larger stamp.",
  "every time stamp",
  "needs time stamps of 2^32",
  ["src/serdes.rs: SubSecretKey::serialize"])
p("Deserialization does not depend on how the reader chunks its data",
  "For any reader that delivers the same bytes in any non-empty chunks, the result is the same. With interrupted reads (which std's read_exact retries) the result is the same for signatures, pks and pops, but not for secret keys: an interruption at the vector-length byte turns into an error.",
  "every chunking and every interruption schedule",
  "schedules are unbounded",
  ["src/serdes.rs: SubSecretKey::deserialize"])
p("Serializers write all or nothing",
  "A serializer that fails on invalid data writes nothing; when it returns Ok it wrote exactly the blob; when the writer fails it has written a prefix of the blob. Holds for every writer that accepts any number of bytes per call, interrupts, or fails.",
  "every object and writer schedule",
  "schedules are unbounded",
  ["src/serdes.rs"])
p("A reloaded key behaves identically",
  "Saving and reloading the key (serialize, deserialize) at any points of a history changes no later result.",
  "every history and every set of reload points (crash points)",
  "all crash points",
  ["src/serdes.rs: SecretKey"])
p("Secret key digest",
  "The documented claim digest = sha512(serialize(sk)) is false: the code hashes size() zero bytes followed by the blob. The digest nevertheless is a function of the blob only.",
  "every secret key",
  "tests only check that digest is Ok",
  ["src/secret_key.rs: digest"])
p("os2ip_mod_p",
  "For every byte string of at most 64 bytes the result is the big-endian integer mod p, it is < p, and no assertion fails; longer inputs panic.",
  "every byte string",
  "2^512 inputs",
  ["src/prng.rs: os2ip_mod_p"])
p("PRNG functions match the specification",
  "init, sample, sample_then_update and rerandomize compute exactly the HKDF-SHA512 formulas of the spec; the HKDF-expand assertions never fail; seeds stay 64 bytes; sampled scalars are < p.",
  "every seed, salt, info and prng state",
  "all byte strings",
  ["src/prng.rs"])
p("Domain separation",
  "The info / hash inputs of different purposes (key initialization, sk init, update, rerandomize, signing, message hash, pop) never coincide, for any message and time stamps; signing infos for (msg,time) pairs with time < 2^32 are pairwise distinct.",
  "every message and time stamp",
  "all byte strings",
  ["src/domain_sep.rs", "src/sig.rs: sign_bytes", "src/secret_key.rs"])
p("Validation accepts only keys satisfying the pairing equations",
  "If sk.validate(pk,pp) is true then all ciphersuites agree, the i-th sub key's time is the i-th gamma list entry, and every sub key satisfies e(g2,hpoly) = e(g2r, h0*prod hi^ti) * e(pk,h).",
  "every secret key value, public key, parameter set",
  "all group elements",
  ["src/secret_key.rs: validate", "src/subkeys.rs: validate"])
p("Validation misses truncated keys",
  "The claim 'a validated key holds the whole gamma list and can sign' is false: a key with no sub keys, or with empty sub key vectors, validates; and validate panics on a key with one sub key too many.",
  "every key built by removing sub keys",
  "no test builds such keys",
  ["src/secret_key.rs: validate"])
p("C interface end to end",
  "For any seed of >= 32 bytes, any sequence of c_sk_update calls to increasing in-range times and any message, c_sign_present returns 149 bytes that c_verify accepts for the pk bytes of c_keygen, c_verify_pop accepts the pop bytes, and the sk buffer has c_estimate_sk_size(time,32) bytes. On arbitrary bytes the checking functions return what the Rust checks return for the decoded objects, and panic if there are none.",
  "every seed, update sequence, message",
  "unbounded",
  ["src/ffi.rs"])
p("C interface aggregation",
  "c_aggregation of honest signatures on the same message and time verifies with c_verify_agg; it panics exactly when a blob is malformed, times or ciphersuites differ, or the list is empty.",
  "every list of blobs",
  "unbounded lists",
  ["src/ffi.rs: c_aggregation, c_verify_agg"])
p("Rust and Python reference implementations agree",
  "For every seed, update path (any in-range targets, any update seeds) and message, the Python code in pixel-python produces byte-for-byte the same serialized public key, secret key and signature as the Rust code with ciphersuite 0 and depth 32.",
  "every seed, update history, message",
  "the repo compares 2x62 fixed vectors",
  ["pixel-python/*.py", "src/"])
p("Code's update loop implements the spec's prefix rule",
  "On every reachable key the loop that stops at the first gamma-list entry already present delegates exactly the entries below the delegator, as spec.md prescribes.",
  "every reachable key and target",
  "every (source,target) shape",
  ["src/secret_key.rs: update", "spec.md"])
p("Randomness used by one update",
  "An update re-randomizes the PRNG once and then draws one field element per new sub key other than the first; the code comment 'zero or one random field element' is false (an update draws at most depth-1 elements, and exactly depth-1 from time 1 to time depth).",
  "every reachable key and target",
  "every (source,target) shape",
  ["src/secret_key.rs: update"])
p("Sub key algebra",
  "Every sub key of a reachable key is g2^r, h^x*(h0*prod hi^ti)^r, h_{|t|+1}^r..h_d^r for some r; delegate keeps r and moves t, randomization adds to r; delegation is transitive and commutes with randomization.",
  "every reachable key; all scalars",
  "all group elements",
  ["src/subkeys.rs"])
p("Failed randomization is not atomic",
  "The expected property 'a failed randomization leaves the sub key unchanged' is false: g2r is modified before the time stamp is checked. A failed delegate does leave the sub key unchanged.",
  "every sub key with an invalid time stamp",
  "no test has failing randomization",
  ["src/subkeys.rs: randomization, delegate"])
p("Equality of objects",
  "SecretKey, PublicKey equality holds exactly if all fields agree; Signature equality ignores ciphersuite and time stamp, so two signatures for different times can compare equal.",
  "every pair of objects",
  "all pairs",
  ["src/sig.rs: PartialEq", "src/secret_key.rs: PartialEq", "src/public_key.rs: PartialEq"])
p("Malformed secret keys can crash update",
  "The expected property 'update returns Err on any malformed key' is false: a deserialized key whose sub key vector is too short makes update panic with an index error. For every key that has the right shape it does not panic.",
  "every secret key blob",
  "fuzzing space",
  ["src/subkeys.rs: delegate", "src/secret_key.rs: update"])
p("Failed sign may still advance the key",
  "The documented claim 'on error the secret key remains unchanged' holds for sign on all reachable keys, but is false in general: update does not check that the ciphersuite is supported, so sign can update the key and then fail.",
  "every secret key value and parameter set",
  "no test uses unsupported ciphersuites with sign",
  ["src/sig.rs: sign", "src/secret_key.rs: update"])
p("Forward security against linear attacks",
  "No fixed linear combination of the group elements held in a key at time t and of the public parameters yields, for all values of the secrets and parameters, an accepted signature for a time stamp smaller than t.",
  "every reachable key shape, every linear strategy, every past time",
  "quantifies over adversaries and all group elements",
  ["src/secret_key.rs: update", "src/subkeys.rs"])
p("The identity as a public key",
  "The expected property 'verify rejects a public key that is the group identity' is false: for it the signature made of the two identities is accepted for every message and every time stamp in range (and only for it).",
  "every message, time stamp, valid parameter set",
  "all messages and times",
  ["src/sig.rs: verify_bytes, verify_fr", "src/public_key.rs: deserialize"])
p("Signatures have the value the specification gives",
  "For every reachable key the signature on msg at the key's time is (g2^k, h^x * (h0*prod hi^ti*hd^M)^k) where k is the first sub key's randomness plus the scalar drawn from the key's PRNG seed with info = 'Pixel randomness for signing' | msg | time (4 bytes, big endian) and M is the hash of msg.",
  "every reachable key and message",
  "all keys and messages; known answers cover single ones",
  ["src/sig.rs: sign_bytes, sign_fr"])
p("Prng and key generation formulas of spec.md",
  "The formulas of spec.md for re_randomize (extract with a fixed salt from a 64-byte expansion) and for the master key info ('Pixel master key') are false of the code: re-randomization uses the second half of a 128-byte expansion as salt, and the master key is drawn with info 'key initialization'.",
  "exists a state and seed where they differ",
  "the tests compare the code with itself or with the Python code",
  ["src/prng.rs: rerandomize", "src/key_pair.rs: master_key_gen", "spec.md"])
p("Signatures alone do not help",
  "A strategy that computes a signature as a fixed linear combination of the public parameters, the public key and signatures on chosen times and messages yields an accepted signature for (t, msg), for all parameters and secrets, if and only if one of the signatures seen is for time t and a message with the scalar of msg.",
  "every list of queries, every linear strategy, every target",
  "quantifies over adversaries and all group elements",
  ["src/sig.rs: verify_bytes, verify_fr, sign_present"])
p("A sub key is good for its subtree only",
  "From the public parameters and the sub key for time stamp a, a signature for time t can be computed by linear combination, for all parameters and secrets, if and only if t is a or below a in the time tree.",
  "every depth, every pair of time stamps, every linear strategy",
  "quantifies over adversaries and all group elements",
  ["src/subkeys.rs: delegate", "src/sig.rs: sign_bytes"])
p("Aggregate verification decides the equation for the sum of the keys",
  "For a non-empty list of public keys in the subgroup verify_aggregated never panics, and is true exactly when every ciphersuite agrees with a supported one of the parameters, the signature's components are in the subgroup, the time stamp is in range and the Pixel equation holds with the sum of all the keys as public key. For one key it is verify plus the check of the key's ciphersuite.",
  "every non-empty list of public keys, every signature and message",
  "all lists of keys and all group elements",
  ["src/sig.rs: verify_bytes_aggregated"])
p("Rogue keys",
  "The expected property 'an accepted aggregate means that every listed signer signed' is false without proofs of possession: for any list of public keys, whoever adds the key g2^y / (product of the others) can make an accepted aggregate on any message and time alone, knowing y only.",
  "every list of public keys, every message, time stamp, y",
  "all key lists; the documentation mentions the attack, no test shows it",
  ["src/sig.rs: verify_bytes_aggregated", "src/lib.rs: verify_aggregated"])
p("Signatures can be re-randomized",
  "The expected property 'only the signer can make a second accepted signature on the same message and time' is false: for every k, adding (g2^k, F^k), with F the public hash of time and message, to an accepted signature gives an accepted one; it is a different one unless k = 0 mod p. Conversely any two accepted signatures for the same key, message and time differ by such a k.",
  "every accepted signature, every k",
  "all signatures and scalars",
  ["src/sig.rs: verify_fr"])
p("An accepted aggregate can be made of rejected signatures",
  "The expected property 'if an aggregate is accepted then each of the aggregated signatures is accepted for its key' is false: any two accepted signatures can be changed into two rejected ones with the same aggregate. It is true when all but one of them are accepted.",
  "every pair of accepted signatures; every list with all but one accepted",
  "all group elements",
  ["src/sig.rs: aggregate_without_validate, verify_bytes_aggregated"])
p("Reused signing randomness",
  "From two accepted signatures for one key and time with the same first component, on messages with different scalars, an accepted signature on every message for that time can be computed with public values only. On a reachable key two signing calls give the same first component exactly if they draw the same scalar.",
  "every pair of such signatures, every target message",
  "all signatures and messages",
  ["src/sig.rs: sign_bytes, sign_fr"])
p("Debug and release builds agree",
  "From any reachable key every history of operations has the same results and the same final key whether the build checks arithmetic overflow or not: no overflow happens.",
  "every history of API calls on every reachable key, all u64 time stamps",
  "all histories; tests are run in one mode",
  ["src/time.rs", "src/secret_key.rs: update", "src/sig.rs: sign, sign_present, sign_then_update"])
p("Signing with an arbitrary key",
  "For every secret key value, also a malformed one, sign_present returns Ok, one of the documented errors or a time-vector error, and never panics if the parameters are well formed. The signature it returns is accepted exactly if the first sub key satisfies the pairing equation extended by the message: e(g2, hpoly*hlast^M) = e(g2r, h0*prod hi^ti*hd^M)*e(pk,h), whatever randomness is drawn.",
  "every secret key value, every message",
  "all key values",
  ["src/sig.rs: sign_present, sign_bytes, sign_fr"])
p("Many signers end to end",
  "For any number of signers with any seeds, each with any history of calls of their own, the signatures they make on one message at one time aggregate to a signature that verify_aggregated accepts for their public keys, and all their proofs of possession are accepted.",
  "every list of seeds and histories, every message and time",
  "all combinations of histories",
  ["src/lib.rs: PixelSignature"])
p("Initialization by randomization",
  "init_from_randomization(pp, alpha, r), which randomizes the trivial root sub key, gives the same sub key as init(pp, alpha, r), and fails in the same cases.",
  "every alpha and r, every well formed parameter set",
  "the test compares the two for one alpha and r",
  ["src/subkeys.rs: init, init_from_randomization"])
p("The test vector generator runs through",
  "The program test_vector/src/main.rs, which generates a key, moves it through times 1..63 one by one and then through 3, 6, 10, .. 2016 and signs at each, fails none of its assertions and unwraps unless an update meets the 'prng not updated' panic (and then the hash function breaks among the program's own queries), and every key it writes is a valid key of the time in its file name.",
  "every parameter set of depth at most 32 with 2016 time stamps; every hash function",
  "the program is run for one parameter set",
  ["test_vector/src/main.rs"])
p("Python accepts the generator's files",
  "Run on the files that the Rust generator wrote, pixel-python/test_vector.py meets no exception and no failing comparison: every public key, secret key and signature file is the same.",
  "every parameter set the Python code supports; every hash function",
  "the comparison is run for one parameter set",
  ["pixel-python/test_vector.py", "test_vector/src/main.rs"])
p("The C program writes the generator's files",
  "c_wrapper/test.c fails none of its assertions, and the 126 files of its test_vector function are those of the Rust generator, unless an update meets the 'prng not updated' panic (and then the hash function breaks among the program's own queries).",
  "every parameter set of depth at most 32 with 63 time stamps; every hash function",
  "the comparison is run for one parameter set",
  ["c_wrapper/test.c", "test_buf/test_vector.py", "src/ffi.rs"])
p("Memory of the C interface",
  "No C function changes memory the caller can see, and the buffers it returns are new ones. The expected property 'after c_sk_update the old key is erased' is false: after any number of updates the buffer of every earlier key still holds it, and signing for its time stamp still succeeds.",
  "every sequence of calls",
  "the test program does not look at old buffers",
  ["src/ffi.rs: c_keygen, c_sk_update", "c_wrapper/pixel_c.h"])
p("The cleared variables do not change the results",
  "The functions of prng.rs, subkeys.rs, secret_key.rs, sig.rs and serdes.rs with their local variables and zeroize calls written out return the same results as without them: no value is cleared before its last use.",
  "every argument, every initial memory",
  "a value cleared too early for some input is not found by a test on other inputs",
  ["src/prng.rs", "src/subkeys.rs", "src/secret_key.rs", "src/sig.rs", "src/serdes.rs"])
p("Local secrets are cleared",
  "The rule of the code comments ('all variables named ..._sec are zeroized') holds for update and sign on every path, with or without success: no variable whose name ends in _sec is left in memory. What is left is exactly, per sampled scalar, the limb array in os2ip_mod_p and the by-value parameter r. For randomization alone the rule is refuted: on a bad time stamp tmp_sec is left.",
  "every key, time, seed and message",
  "memory contents after the call are not visible to tests",
  ["src/prng.rs: os2ip_mod_p", "src/subkeys.rs: randomization, delegate", "src/secret_key.rs: update", "src/sig.rs: sign_fr, sign_bytes"])
p("What key generation leaves in memory",
  "The comment in keygen that the master secret is cleared by its destructor is refuted: after every successful keygen the memory still contains the scalar x and h^x, and signatures for every time and message made from what is left are accepted.",
  "every seed and parameter set",
  "memory contents after the call are not visible to tests",
  ["src/key_pair.rs: keygen, master_key_gen", "src/subkeys.rs: init"])
p("Past keys from leftover scalars",
  "Whenever an update creates at least two sub keys, the scalar r that randomization leaves in memory, together with the new secret key, yields a sub key of a time stamp before the new time: forward security fails against an attacker who reads the stack.",
  "every reachable key and update that adds two or more sub keys",
  "an attack on all executions",
  ["src/secret_key.rs: update", "src/subkeys.rs: randomization"])
p("What serialization and digest leave in memory",
  "Serializing a secret key leaves only clones of the hvector points when it succeeds; digest leaves a buffer that still contains the whole serialized key and decodes to it.",
  "every well formed key, every writer",
  "memory contents after the call are not visible to tests",
  ["src/serdes.rs", "src/secret_key.rs: digest"])
p("Forging from leftover signing scalars",
  "Two signatures of one key for one time on messages with different scalars, together with the scalars the two calls left in memory, let anyone sign any message for that time: the linear combination verifies.",
  "every reachable key, all pairs of messages, every third message",
  "an attack on all executions",
  ["src/sig.rs: sign_fr, sign_bytes"])
p("The complete check of a secret key",
  "validate plus exactly three things it leaves out (the sub keys cover all times to the last one, the vector of every sub key belongs to its first component, all points are in the subgroups and the seed has 64 bytes) characterises the keys that behave like generated ones: such a key keeps this property under every sequence of calls, all its signatures verify, and signing for any time from its own on succeeds unless the hash repeats.",
  "every secret key value, every history",
  "a key that passes validate and fails later is found only by the right sequence of updates",
  ["src/secret_key.rs: validate, update", "src/sig.rs: sign"])
p("Re-randomization is perfect",
  "For every key at time t, each signature accepted for (public key, t, message) is produced by signing with exactly one scalar; two keys of one public key at the same time produce the same signatures, whatever their histories; and of two sub keys for one time stamp passing the complete check, each is reached from the other by randomization with exactly one scalar. So signatures and re-randomized keys carry no information on the history.",
  "every reachable key, message, accepted signature",
  "a statement on distributions",
  ["src/sig.rs: sign_fr", "src/subkeys.rs: randomization"])
p("Sampling of scalars is almost uniform",
  "Over all 64-byte hash outputs, os2ip_mod_p takes each scalar x exactly 2^512/r times, plus one when x < 2^512 mod r; for every set of scalars the probability differs from the uniform one by less than 2^-256.",
  "every scalar, every set of scalars",
  "2^512 inputs",
  ["src/prng.rs: os2ip_mod_p, sample_then_update"])
p("The prng state commits to the history",
  "The state of a key's prng is a chain of HMAC steps from the key generation seed. Two keys with equal states have the same ciphersuite, the same key generation seed and the same sequence of (time, seed) of the operations that advanced them, or two of the listed hash inputs collide, or one of them hashes to the padded salt of key generation. The same for the 64-byte strings from which scalars are drawn, for all purposes.",
  "every hash function with 64 bytes of output, every pair of histories",
  "repetitions do not occur in tests",
  ["src/prng.rs", "src/secret_key.rs: update", "src/key_pair.rs: master_key_gen"])
p("The 'prng not updated' panic breaks the hash function",
  "If any call on a reachable key panics, then among the explicit list of hash inputs of the key's history and of that call there is a collision of SHA-512 or a preimage of a fixed string. The same holds if an update succeeds and leaves the prng state as it was.",
  "every history, every call, depth at most 32",
  "the panic cannot be triggered by a test",
  ["src/secret_key.rs: update (assert_ne)", "src/sig.rs"])
p("Signing strings do not repeat",
  "The 64-byte strings from which two signing calls draw their scalars are equal only for the same key generation seed, ciphersuite, history of advances, time and message, or else the hash inputs contain a collision or a preimage of a fixed string.",
  "every pair of histories and messages, depth at most 32",
  "repetitions do not occur in tests",
  ["src/sig.rs: sign_bytes", "src/prng.rs: sample"])
p("The key tests pass for every argument",
  "The programs of src/test/keys.rs on updates and validation (test_quick_key_update, test_long_key_update, test_sk_validation, test_long_sk_validation) pass for every key generation seed, update seed, parameter set and loop bound up to the last time stamp; the only other outcomes are the 'prng not updated' panic of an update and, in the quick test, the failed assertion that the prng state has changed, and both come with a break of the hash function in a history the test runs through.",
  "all seeds, parameters, depths and loop bounds",
  "the tests fix the seed and the bound",
  ["src/test/keys.rs: test_quick_key_update, test_long_key_update, test_sk_validation, test_long_sk_validation"])
p("The API, signature and aggregation tests pass for every argument",
  "test_pixel_api, test_must_fails_time_stamp, test_quick_signature_tests, test_long_signature_tests and the aggregation tests pass for all seeds, messages, parameters, loop bounds and numbers of signers, unless the hash function breaks in one of their histories.",
  "all seeds, messages, parameters and loop bounds",
  "the tests fix their arguments",
  ["src/test/api.rs", "src/test/sig.rs"])
p("The serialization and C interface tests pass for every argument",
  "The _rand tests of serdes.rs (with sizes and estimate) and the two tests of ffi.rs pass for all seeds, messages, scalars, points of the subgroups and parameters, unless the hash function breaks in one of their histories.",
  "all seeds, messages, scalars, points and parameters",
  "the tests fix their arguments",
  ["src/test/serdes.rs", "src/test/ffi.rs"])
p("The sub key, master key, negative and getter tests pass for every argument",
  "test_key_gen, test_randomization, test_delegate (delegation along the first path, each time or step by step), test_master_key, the negative tests and the getter tests of keys, for all scalars, seeds and parameters.",
  "all scalars, seeds and parameters; test_delegate for times up to the depth",
  "the tests fix or sample their arguments",
  ["src/test/keys.rs: test_key_gen, test_randomization, test_delegate, test_master_key, negative_test_*", "src/test/getter.rs"])
p("A signature is accepted elsewhere only if two group elements coincide",
  "A signature accepted for one key, parameter set and message, with first component k*g, is accepted for another key x', parameter set and message if and only if the ciphersuites agree, its time is one of the other tree, and x'*h' + k*F'(v', msg') = x*h + k*F(v, msg). With this, test_must_fails_mismatch of src/test/sig.rs ends in Ok or in a failed assertion, and it passes if and only if the six foreign proofs of possession are rejected and none of the eight equations for its foreign verifications holds.",
  "all keys, parameters (also of another depth), messages, times; all arguments of the test",
  "the test tries eight combinations of one set of arguments",
  ["src/sig.rs: verify_bytes", "src/test/sig.rs: test_must_fails_mismatch"])
p("The parameters of param.py are those of the specification and meet every hypothesis",
  "For every seed, ciphersuite byte and depth below 255, pixel-python/param.py computes the parameters of spec.md ('Parameter generation') and a file of 2 + 96 + 192*(d+2) bytes that determines them; the seed is the SHA-512 initial value; the info strings are distinct. If hashing to the group gives points of the subgroup, the parameters meet the hypotheses of the other theorems, so that with them and any seed of 32 bytes or more key generation succeeds, the proof of possession is valid, and after every history of calls the key is valid and signs exactly the times from its own up to 2^32-1 (or the hash function breaks).",
  "all seeds, all depths from 1 to 63, all histories",
  "the tests use one parameter set",
  ["pixel-python/param.py", "spec.md: Parameter generation", "src/lib.rs: param_default"])
p("The benchmark programs pass exactly when the times they draw are large enough",
  "Benchmarks that age a key to a random time drawn from 0 on pass if every drawn time is at least 2 (1 where a signature is made at the drawn time), and otherwise stop with a failed assertion in their preparation; both unless an update panics and then the hash function breaks. So it is false that they always pass. The other benchmarks (key generation, aggregation, sequential and leaf updates, delegation, randomization, gamma lists) pass for all arguments within the bounds of the tree.",
  "all seeds, drawn numbers, numbers of samples and of runs, parameters, messages",
  "a benchmark draws 0 or 1 with probability about 2^-31 per sample",
  ["benches/benchmarks/bench_api.rs", "benches/benchmarks/bench_sk_ops.rs", "benches/benchmarks/bench_ssk_ops.rs", "benches/benchmarks/bench_time.rs"])
p("Forging for an earlier time stamp is as hard as a pairing problem",
  "From a challenge g, a*g, .., a^d*g, b*g in both groups a solver makes public parameters, a public key with secret a, and the answers to a forger that may ask for the sub keys of every node not above the target time stamp and for signatures on everything but the target; for each fixed a and b there is a bijection of the coins under which parameters, answers and outcome are exactly those of a real signer. Whatever signature for the target verify accepts gives e(g,g)^(b*a^(d+1)). So for every strategy at least as many coins solve the problem as win the game. All sub keys of a secret key after an update past the target, and all signatures the interface returns, are answers the game allows.",
  "all forger strategies, depths, targets, challenges and coins; all histories of calls",
  "quantifies over attackers",
  ["src/sig.rs: verify_bytes, sign_bytes", "src/subkeys.rs", "src/secret_key.rs: update"])
p("Whether a call succeeds does not depend on group elements",
  "Success, the error or the panic of update, sign, sign_present and sign_then_update, the time stamps, sizes and prng state of the key left behind, and the ciphersuite and time stamp of a signature are functions of the same data before the call, the arguments and the hash function; no group element of the key or the parameters has any influence. The same for key generation, for whole histories and for aggregation.",
  "all keys and parameters, also malformed ones, all arguments, all histories without reloading, two arbitrary implementations of the groups",
  "a statement about pairs of executions",
  ["src/secret_key.rs: update", "src/sig.rs: sign, sign_present, sign_then_update, aggregate_without_validate", "src/key_pair.rs: keygen"])
p("The helper functions return what they should on every argument",
  "u64 addition, subtraction, multiplication and shift are those of the integers where they fit, panic in debug builds and wrap in release builds otherwise; HKDF-Expand is RFC 5869 for every length and fails exactly above 255 blocks; Vec indexing, insert and remove panic exactly outside the vector; find_ancestor returns the time stamp of the last sub key not after the target and fails exactly on an empty key or a target not after the first; master_key_gen, PublicKey::init, SecretKey::init and key_gen have the stated value, error or panic for every seed and every parameter value, also malformed ones.",
  "all integers below 2^64, lengths, keys, seeds and parameters",
  "the functions are only called with a few arguments by the tests, some branches never",
  ["src/prng.rs", "src/secret_key.rs: find_ancestor, init", "src/key_pair.rs: master_key_gen, keygen", "src/public_key.rs: init"])
p("Forging an aggregate with known co-signers is as hard as a pairing problem",
  "An aggregate in which one signer occurs any number of times beside signers with known secrets is accepted exactly if its points are in the subgroups and, with the others taken out and divided by the number of occurrences, it is accepted for that signer alone. So a forger that may ask for sub keys and signatures of one signer, and ends with an accepted aggregate of that signer and others whose secrets it names, for any time stamp below which it asked for no sub key and a message not signed then, gives a solver of the problem of C93: for some time stamp at least 1/(2^d - 1) of the winning coins solve.",
  "all forger strategies, depths, numbers of signers, messages, challenges and coins",
  "quantifies over attackers",
  ["src/sig.rs: verify_bytes_aggregated, verify_bytes, aggregate_without_validate"])
p("What a key holds node by node, its largest size, and the cost of the next time stamp",
  "A key at time stamp t holds, in this order, the sub keys of the node of t and of the right siblings of the left turns on the path to it, deepest first, each with one point per level below it; so there are as many as left turns plus one. No key is larger than 66 + 149d + 48(2 + d(d-1)) bytes and the key of time stamp d has that size. The update from t to t+1 only drops the first sub key if t is a leaf, and otherwise replaces it by those of its two children, the left one with the randomness of the parent and the right one with exactly one fresh scalar added, and draws nothing else.",
  "all depths, reachable keys, time stamps, seeds and hash functions",
  "the tests look at a few keys of depths 4 and 5; the largest key of depth 30 is not made",
  ["src/secret_key.rs: update", "src/time.rs: gamma_list", "src/subkeys.rs: delegate"])
p("Forging with everything chosen last is as hard as a pairing problem, for a random message hash",
  "A forger may ask for values of the hash function, for sub keys and for signatures, and ends with a message, a time stamp and an aggregate with co-signers whose secrets it knows. If the hash values are taken one by one from a list of q values with different scalars, then for one guess of time stamp and hash question at least a fraction 1/((2^d-1)q) of the coins with which it wins are matched, one to one, by coins with which the solver computes the solution of the challenge. Winning against any fixed hash function is winning this game with its values, unless two inputs asked for have the same scalar; without the condition on the q scalars at most q(q-1)/r of all coins are lost.",
  "all forger strategies, depths, numbers of questions, challenges, coins and hash functions",
  "quantifies over attackers and hash functions",
  ["src/sig.rs: hash_msg_into_fr, verify_bytes_aggregated, verify_bytes"])
p("The code implements the algorithms of spec.md",
  "Key generation, update after any history, signing for the present or the past, verification, aggregation and its verification, and validation of public keys do what the steps written down in spec.md do, value by value and error by error (aggregation may report the other of two errors), with the info strings of the code; update may also panic, and then the hash function breaks. Validation of a secret key accepts what spec.md accepts and in addition keys that lack sub keys at the end. It is false that the strings printed in spec.md give the code's keys, and false that its sign_bytes for a later time makes a valid signature.",
  "all seeds, parameters, histories, targets, messages, signatures and keys",
  "the document is not executable and its test vectors are those of the code",
  ["spec.md: lines 57-84, 149-640, 676-740", "src/key_pair.rs", "src/secret_key.rs", "src/subkeys.rs", "src/sig.rs", "src/public_key.rs"])
p("Printing a secret key discloses its prng state, and with it more than the key",
  "The Debug text of a prng or of a C buffer determines its bytes. The text of a secret key determines its time stamp and prng state, whatever is printed for points; with two signatures for that time stamp this gives an accepted signature on every message for it, and with a later secret key and the seed of the update in between a working key for an earlier time stamp. The text of a signature shows neither time stamp nor ciphersuite: an accepted and a rejected signature can have the same text.",
  "all prng states, buffers, keys, messages, updates and ways of printing points",
  "no test looks at the printed text",
  ["src/prng.rs: Debug", "src/secret_key.rs: Debug", "src/subkeys.rs: Debug", "src/sig.rs: Debug", "src/ffi.rs: Debug"])
p("Through the C interface, keys and arrays in memory behave as in the library",
  "A key that c_keygen or a chain of c_sk_update calls returned signs for its time stamp, and c_verify accepts, whatever other calls, allocations and writes to other blocks happened in between; for any other time stamp c_sign_present panics. c_aggregation and c_verify_agg read the elements of the array one after the other; the signatures of any number of held keys on one message for one time stamp, put into an array, aggregate, and c_verify_agg accepts with the array of their public keys. The result of a call depends on the bytes of the buffers given to it only.",
  "all interleavings of calls and writes, memories, array positions and lengths, parameters",
  "memory layout and interleaving: the C test runs one key and one order of calls",
  ["src/ffi.rs: c_keygen, c_sign_present, c_verify, c_sk_update, c_aggregation, c_verify_agg", "c_wrapper/pixel_c.h"])
p("Proofs of possession make aggregates as hard to forge as single signatures",
  "A forger may ask for sub keys, signatures, hash values and points of the hash function behind proofs of possession, and gets the proof of the key under attack. It ends with a message, a time stamp, an aggregate and a list of public keys with proofs that contains the key under attack; the secrets of the others need not be known. If PublicKey::validate accepts every key with its proof and the aggregate is accepted, then for one guess of time stamp and hash question at least a fraction 1/((2^d-1)q) of the coins with which this happens are matched, one to one, by coins with which the solver computes the solution of the challenge; at most (q(q-1)+p+1)/r of all coins are lost. It is false without the check of the proofs: then a forger that asks for one hash value wins with all coins.",
  "all forger strategies, depths, numbers of questions, challenges and coins",
  "quantifies over attackers and hash functions",
  ["src/public_key.rs: validate", "src/key_pair.rs: proof_of_possession", "src/sig.rs: verify_bytes_aggregated", "src/pop.rs"])
p("Forward security of the code itself, with its hash functions as random oracles",
  "A forger talks to a signer that runs key_gen, update and sign_present, chooses time stamps, messages and update seeds, asks for hash values, may break in once and then gets the whole secret key with its prng state, and ends with a message, an aggregate and a list of public keys with proofs. It wins if everything is accepted for a time stamp before the break-in for which the signer did not sign the message. If the values of the hash function are drawn when they are first needed and make up a function, then for one guess of time stamp and hash question at least a fraction 1/((2^d-1)q) of the coins with which it wins against the code run with that function are matched, one to one, by coins with which the solver computes the solution of the challenge.",
  "all forger strategies, depths, histories, seeds, break-in times, numbers of questions, challenges and coins",
  "quantifies over attackers, hash functions and histories",
  ["src/key_pair.rs: keygen, master_key_gen, proof_of_possession", "src/secret_key.rs: init, update", "src/subkeys.rs: delegate, randomization", "src/sig.rs: sign_present, verify_bytes_aggregated", "src/prng.rs: sample_then_update, sample, rerandomize", "src/public_key.rs: validate"])
p("The forward security game over all coins",
  "In the game played with the code, the coins for which the values drawn do not make up a hash function, because a prng state is met again or was asked for before or looks like the input of the message hash, are few: at most (nk(nk+q+2)+nu^2+2q)/2^176 of all coins, for q questions, nk prng states and nu other values. So if every such coin counts as won by the forger, and h, points and hash values are any scalars, the number of coins with which it wins is at most (2^d-1)q times the number of those with which the solver computes the solution, plus these, plus (q(q-1)+p+1)/r of all coins.",
  "all forger strategies, depths, histories, seeds, break-in times, numbers of questions, challenges and coins",
  "quantifies over attackers, hash functions and histories",
  ["src/key_pair.rs: keygen", "src/secret_key.rs: init, update", "src/sig.rs: sign_present, hash_msg_into_fr", "src/prng.rs: sample_then_update, sample, rerandomize"])
p("Forward security with every call of the interface",
  "In the game the forger uses all calls of the trait that take the secret key, in any order: update, sign (which may update the key first), sign_present, sign_then_update, and the key is saved and loaded in between. It wins with an accepted aggregate for a message and time stamp for which no call returned a signature (a panicking sign_then_update counts as returning one), before the break-in if there is one. Whatever the hash functions are, this is the same game as with update and sign_present only; so the bound on the coins with which it wins holds here too.",
  "all forger strategies, hash functions, depths up to 32, histories, seeds, break-in times, challenges and coins",
  "quantifies over attackers, hash functions and histories",
  ["src/lib.rs: sk_update, sign, sign_present, sign_then_update", "src/sig.rs: sign, sign_present, sign_then_update", "src/secret_key.rs: update", "src/serdes.rs: secret keys"])
p("The reduction of the forward security game is a program with bounded costs",
  "The solver of the game is a program that does not depend on how the groups are implemented: it gets at points only by adding, doubling, negating, multiplying by scalars, comparing and pairing them, by naming one in a hash question, and by handing them to the forger and getting others back. Each of these steps costs 1, a multiplication 2 more per bit of the scalar. If the forger speaks at most n times and ends with at most l keys, the program plays it once, finds what the solver finds, and costs at most 1201 (5d + p + 26 + n((d+1)(10d+11) + 2n + 3) + l(3(n+1+l) + 9)). So the bound on the coins with which a forger that uses every call of the interface wins holds with this program as the solver.",
  "all forger strategies, depths, numbers of questions and keys, challenges and coins",
  "quantifies over attackers; concerns the cost of the proof's solver",
  ["src/key_pair.rs: keygen", "src/secret_key.rs: update", "src/sig.rs: sign, sign_present, sign_then_update, verify_bytes_aggregated", "src/public_key.rs: validate"])
p("Forward security as a bound on the probability to win",
  "Everything in the forward security game is drawn: the key, the coins, and in the solver also the guesses of the break-in time, the time stamp of the forgery and the hash question. If the solver's program, which has bounded costs, finds the solution of a random challenge with probability at most eps, then a forger that uses every call of the interface and q hash questions wins with probability at most 2*2^d*(2^d-1)*q*eps + 2^d*((q(q-1)+p+1)/r + (nk(nk+q+2)+nu^2+2q)/2^176), summed over all times of the break-in, so also if it chooses that time as it goes. For depth at most 32 and up to 2^40 questions and values the second term is at most 2^-61.",
  "all forger strategies, depths up to 32, numbers of questions, keys and coins",
  "quantifies over attackers, hash functions and histories; a probability over all coins",
  ["src/key_pair.rs: keygen", "src/secret_key.rs: update", "src/sig.rs: sign, sign_present, sign_then_update, verify_bytes_aggregated", "src/public_key.rs: validate"])
p("What an update leaves in the memory of the Vec of sub keys",
  "update works on a clone of the key whose sub keys lie in one block of memory. Removing the first sub keys moves the others down and leaves copies of the last one in the slots that become free; inserting may enlarge the block, and the allocator may then free the old block with everything in it. After a successful update the block and the blocks freed hold time, g2r and hpoly of current sub keys and perhaps of the one sub key the new ones were made from; they hold the latter exactly if a block was moved while enlarging (which needs a new key with at least as many sub keys as the old one), or if the delegator was the last sub key and the new key is shorter by at least two. So the first update of a generated key leaves the root's contents in a freed block whenever that block is moved. Together with the new key they yield accepted signatures on every message for the past time stamp, because the first new sub key has the same randomness; and the whole old sub key if the new time stamp is its child.",
  "all keys reachable by any history, time stamps, seeds, growth policies of Vec and behaviours of the allocator",
  "tests do not see freed memory",
  ["src/secret_key.rs: update 151-430 (remove 265 and 418, insert 407, *self = new_sk 287 and 428)", "src/subkeys.rs: SubSecretKey, zeroize(drop) 19-32"])
p("Default and wiped keys are dead",
  "Zeroizing (or dropping) a prng, a sub key or a secret key leaves exactly the default value of its type, whatever it held. A secret key without sub keys, so every wiped key, answers every call of the interface in every order with an error and stays as it is; it is not validated, and its serialization can not be read back. A default sub key cannot be delegated or randomized (randomization changes g2r and then fails) and is not validated. A default signature is never accepted, alone or as an aggregate, does not aggregate with real ones and can not be read back. A default public key on the other hand is accepted: there is a proof of possession for it, and it verifies the signature made of two identities for every message and time stamp.",
  "all keys, histories of calls, parameters, messages, seeds and time stamps",
  "the test wipes one object of each type and compares; it calls nothing on it",
  ["src/secret_key.rs: derive(Default, Zeroize) 18-29", "src/subkeys.rs: derive(Default, Zeroize) 19-32", "src/prng.rs: Default, Zeroize 20-29", "src/sig.rs: derive(Default) 22", "src/public_key.rs: derive(Default) 9", "src/test/pixel_zeroize.rs"])
p("Forward security with several honest signers",
  "In the game there are several signers, all running the code with keys they generated under the same parameters. The forger makes every call of the interface at any of them and breaks in at any of them, at any time and more than once, after which the signer goes on. It wins against one of them if that signer's key is among those of an accepted aggregate, with validated proofs of possession for all, while it has not signed the message for the time stamp and every break-in at it came later; the other signers may have signed the message or have lost their keys. Whatever the hash functions are, a forger that wins gives one that wins the game with that signer only, by running the code of the others itself; it speaks at most 16k + (6d+13)n times if the first speaks n times to k others. So the bound on the probability to win holds here, with that number of questions.",
  "all forger strategies, numbers and seeds of signers, hash functions, depths (up to 32 for the probability), histories and coins",
  "quantifies over attackers, hash functions and histories of several keys",
  ["src/key_pair.rs: keygen", "src/lib.rs: sk_update, sign, sign_present, sign_then_update", "src/sig.rs: verify_bytes_aggregated", "src/public_key.rs: validate", "src/secret_key.rs: update"])
p("What the serialization of a secret key leaves in memory",
  "Serializing a secret key collects the bytes in buffers that are wiped at the end. But a buffer that gets too small is enlarged before, and the allocator may free the smaller block as it is. The bytes written and errors do not depend on this; every block freed is a beginning of the serialized key or of one of its sub keys, and if blocks are never moved nothing is left. If they are moved and a buffer is at most doubled as in std, a block with the complete prng state is always left, and for a key with two or more sub keys one with the state and the complete first sub key. The latter, read with the count of sub keys set to one, is a key that signs every message for the current time stamp; so nothing is gained there by the wiping. The former gives signatures on every message for the time stamp from two genuine ones. If the writer fails the whole key is left in a freed block.",
  "all keys reachable by any history, messages, growth policies of Vec that at most double, and behaviours of the allocator",
  "tests do not see freed memory",
  ["src/serdes.rs: SecretKey::serialize 211-236, SubSecretKey::serialize 291-329"])
p("The group operations of a call are given by public data, and how many they are",
  "Every call is modelled with the sequence of its operations in the groups: additions, doublings, multiplications by a scalar, negations, subgroup tests, pairings, and the draws of scalars. For keys that exist and any history of calls without panic this sequence is a function of the depth, the time of the key and the kinds and time stamps of the calls only: two keys of different signers, with different messages, seeds and randomness do the same operations in the same order. Successful calls do: key generation d+2 multiplications in G1 and 2 in G2; signing 3 and 1; verification 1 and one product of 3 pairings whatever the number of signers, who each cost one addition; validating a key one product of 3 pairings per sub key. An update does at most (d-1)(d+2)/2 multiplications in G1 and d-1 in G2, reached by a generated key that is updated to the leftmost leaf; to the next time stamp none, unless this is a left child. All updates in the life of a key together do at most 3*2^(d-1)-d-2 and 2^(d-1)-1, reached by going through all time stamps one by one.",
  "all keys reachable by any history, depths, messages, seeds, time stamps, dependency records; histories of any length",
  "a test sees neither the operations nor all histories; the bounds hold for every depth",
  ["src/subkeys.rs: init 96-126, randomization 133-172, delegate 181-223, validate 227-281", "src/secret_key.rs: init 46-75, update 151-430, validate 484-549", "src/key_pair.rs: keygen 24-73, master_key_gen 88-143", "src/sig.rs: 70-160, 164-300, 306-403, 408-464"])
p("What update, delegate, randomization and validate do with any key",
  "For every secret key that can be represented, malformed ones included, every target and seed, the result of update is given by the time stamps the key holds, the lengths of its vectors and the draws of its prng: the last sub key not later than the target says which time stamp is delegated from, the first sub key with this time stamp is taken; new sub keys are made for the nodes that cover the time from the target on, until one is met that the key has already. An error is returned if a number that is no time stamp is met while looking, or if a node is not below the delegator; update panics exactly if the delegator's vector is too short for the target, or longer than the parameters and more than one sub key is made, or if the prng comes back to its state before the call. In all other cases it succeeds, and the new sub keys are the stated combinations of the delegator's elements. Likewise delegate and randomization for every sub key, including what a panic or error leaves in it, and when validate panics. If the time stamps increase a successful update gives a key for the target; without this order the claim is false.",
  "all secret keys and sub keys, parameters, targets, seeds, scalars, build modes",
  "the malformed keys are far more than a test can list, and which of them crash is not visible from the code",
  ["src/secret_key.rs: update 151-430, find_ancestor 449-477, validate 484-549", "src/subkeys.rs: randomization 133-172, delegate 181-223"])
p("What reading a secret key leaves in memory",
  "Reading a secret key from bytes pushes the points of each h-vector, and the sub keys, onto vectors that start empty. A vector that gets too small is enlarged, and the allocator may free the smaller block as it is. The key that is read, or the error, does not depend on this. The blocks left by a successful read are exactly the beginnings of the h-vectors, and of the list of sub keys, at the capacities that were outgrown; if blocks are never moved nothing is left. A read that ends within an h-vector leaves all points of it read before. After an update of the key that was read: if a block with the contents of the sub key that was delegated from is left, every message can be signed for the past time stamp of this sub key; and if a beginning of its h-vector is left that is as long as the way from it to the new time, the whole sub key is computed from it and the new key. With the growth of std this is so for each child of a sub key that has more than four entries in its vector.",
  "all byte sources and keys reachable by any history, targets, seeds, messages, growth policies of Vec and behaviours of the allocator",
  "tests do not see freed memory",
  ["src/serdes.rs: SecretKey::deserialize 250-284, SubSecretKey::deserialize 334-365", "src/secret_key.rs: update 151-430"])
p("What an update leaves in the blocks of the h-vectors",
  "Delegation zeroizes the first entry of the h-vector and removes it by moving the others down, again and again. The slots given free at the end of the block are not overwritten. Results and keys do not depend on this. For every sub key: the entries removed are not in the block any more; the slots given free hold copies of the last entry only, all of them if any entry is left. After an update of any key the spare slots of the new key hold nothing but the last entry of the h-vector of the sub key that was delegated from, and untouched sub keys have none; for keys that exist this point is an entry of the first sub key of the new key, so the live key's memory reveals no more than the key. Blocks freed by the update, also by one that fails, hold only last entries of the old key's sub keys or what its spare slots held before, and none are left if drops overwrite the spare slots; after a successful update they are exactly the blocks of the old key and of the dropped copies, so none is lost. After any sequence of updates everything in spare slots, live or freed, is a last entry of some sub key of an earlier or the current key, that is a multiple of the last generator. But if drops do not overwrite spare slots the last entry stays: together with the other contents of an old sub key (which an enlarged list of sub keys may leave) it signs every message for its past time stamp.",
  "all sub keys, keys, targets, seeds, sequences of updates of any length, results, both behaviours of drop; for the algebraic part all keys reachable by any history",
  "tests see neither spare slots nor freed memory",
  ["src/subkeys.rs: delegate 181-223, derive(Zeroize) 19-20", "src/secret_key.rs: update 151-430"])
p("Which public keys accept a signature, and what a signer is bound to",
  "For parameters whose h is not the identity a signature on a message is accepted under at most one public key of the subgroup, and an aggregate under exactly the lists of keys with one sum. A signature that one key accepts can be accepted, with another time stamp and for another message, under a key made from the first one by adding c times the signature's first component; this happens exactly if c times h is the difference of the two values the signatures are checked against, so making such a key is computing a logarithm in the parameters and whoever chose them with known logarithms can do it. The expected property 'a signature binds its signer to one message' is false: the owner of the exponent of a public key, honestly generated or not, can make a pair with the identity as first component that is accepted for every message and at every time stamp in range.",
  "all parameters, signatures, keys and key lists of any length, messages, time stamps, factors; for the last part all keys reachable by any history",
  "tests verify with the right key only",
  ["src/sig.rs: verify_bytes 306-326, verify_fr 330-403, verify_bytes_aggregated 437-464"])
p("Parameters of different depth from the same seed",
  "The parameters for a depth are the beginning of those for every greater depth. The same seed gives the same public key and proof of possession for both, and the secret key for the smaller depth is the one for the greater with the last entries of the h-vector left out. Depths are not kept apart after that: a key that was updated in the deep tree signs in the shallow tree, under the same public key, at every time stamp whose node has in the deep tree a time stamp not before the key's; node for node the shallow time stamps are not later, so the expected property 'a key at time T signs at no earlier time for any of the depths' is false. Using a key with parameters that differ in the generators and the depth only: signing succeeds if the time is in range, but the signature is accepted under these parameters exactly if the two values of the node and message in the two sets are the same (or the key's randomness is zero), and likewise under the right parameters. A signature accepted under one set is accepted under the other, possibly with another time stamp or message, exactly if these values are the same.",
  "all depths, parameters, seeds, messages, time stamps and nodes, keys reachable by any history, build modes",
  "tests use one depth at a time",
  ["pixel-python/param.py: 53-80", "src/key_pair.rs: 24-143", "src/subkeys.rs: delegate 181-223", "src/sig.rs: sign_bytes 70-104, sign_fr 108-160, verify_fr 330-403"])
p("Several objects in one stream",
  "Signatures, public keys, proofs of possession and secret keys, the latter three in compressed or uncompressed form, can be written one after the other in any order and number, and a reader that knows their kinds and forms gets exactly them back, however the bytes arrive in pieces, and leaves what follows untouched. Blobs of one kind and form delimit themselves: if two streams begin with blobs of the same kind and agree, the objects and the rests are equal. If the stream ends early all objects before the cut are read and the read of the cut object is an error, not a panic and not another object. So whatever a writer does - takes pieces of any size, is interrupted, fails - either all was written and is read again, or the writing returned the i/o error and the objects written completely are read, and the next one is an error.",
  "all lists of representable objects of any length, forms, readers without interruptions, cuts at any byte, writers",
  "cuts, chunkings and writer failures at every byte of every stream cannot be tried",
  ["src/serdes.rs: 28-365"])
p("Parameters with too few or too many generators",
  "Parameters have a depth and a list of generators, and nothing ties the length of the list to the depth. If the list is longer than depth + 1 the generators after that are never looked at: key generation, signing, verification and validation give the same results for any two lists that agree in the first depth + 1 places, and so do updates and whole histories of generated keys; the keys that can exist are the same. For updates this needs that no sub key has more h-values than levels are left below its node, otherwise the results can differ. If the list has depth generators or fewer no signature is ever made and none ever accepted, with any key: verification panics exactly if the ciphersuites are right, both points are in their subgroups and the list is empty or the time stamp is in range, and is never an error; signing panics exactly if the ciphersuite and time are right and the first sub key's time stamp is in range. Key generation panics exactly on an empty list; otherwise it makes a key with too short an h-vector, so the expected property 'key generation notices bad parameters' is false: the first signature panics.",
  "all parameters of depth below 64 with any list of any points, keys, signatures, messages, time stamps, seeds, build modes; for histories all well-formed parameters and keys reachable by any history",
  "tests use the default parameters only",
  ["src/subkeys.rs: init 96-126, randomization 133-172, validate 227-281", "src/sig.rs: sign_fr 220-300, verify_fr 330-403", "src/secret_key.rs: update 151-430"])
p("The strings that are hashed",
  "Running the calls with SHA-512 replaced by a version that records its inputs changes no result. The record is complete: any other function that agrees with SHA-512 on the recorded strings gives the same results, keys and record, for any key, parameters and calls, so nothing else of SHA-512 matters. A verification, also of an aggregate, hashes at most the one string 'Pixel hash to message', ciphersuite, message, and exactly that if it accepts. Key generation hashes 10 strings, signing 3, an update 6 and another 4 for each new sub key but the first. How many strings a sequence of calls on a generated key hashes, in which order and of which length depends only on the depth, the time of the key, the kind and time stamp of each call and the lengths of messages and seeds; a refused call hashes nothing. Over the whole life of a key of depth d the total is at most 4*(2^(d-1) - 1) plus 3 per signing call and 6 per call, and stepping through all time stamps reaches it.",
  "all parameters, seeds, messages, signatures, keys, sequences of calls and hash functions; lengths for well-formed parameters and keys reachable by any history, calls that do not panic",
  "inputs of the hash function are not visible to a test, and agreement is needed on them only",
  ["src/prng.rs: init 71-79, sample_then_update 83-119, sample 123-145, rerandomize 148-175", "src/sig.rs: hash_msg_into_fr 469-480", "src/secret_key.rs: init 46-75, update 151-430", "src/key_pair.rs: master_key_gen 88-143"])
p("Programs over the whole interface",
  "Any program of calls - generating keys from seeds, updating, signing in all three ways, saving and loading keys, signatures and public keys, aggregating any signatures already made (aggregates included), verifying any signature under any keys, checking proofs of possession and secret keys - with any number of signers is followed by a bookkeeper who only knows each signer's time stamp and, for each signature, its time stamp and who signed what. The bookkeeper predicts every result of every call: which error, which panic, or none, and the new times and signatures; calls that panic because a hash repeats the seed change nothing and are skipped. A verification succeeds exactly if one equation holds between two parameters with the secrets and the randomness as factors. It follows: a signature whose parts are all on the message verifies under its signers in any order; under other signers exactly if the public keys of both have the same sum; a single signature on another message verifies under its key exactly if its randomness is zero or the messages hash to the same scalar; a call of a program panics only on an empty list or when a hash repeats the seed.",
  "all programs, of any length, with any number of signers, seeds, messages and time stamps, one set of well-formed parameters with the standard generator and depth at most 32; both build modes",
  "the claim is about all programs, and the tests contain a few dozen fixed ones",
  ["src/lib.rs: trait PixelSignature 88-214", "src/sig.rs: 306-324, 408-464", "src/secret_key.rs: validate 484-549", "src/serdes.rs: 65-195"])
p("Programs over the C interface",
  "Any program that uses only the C functions - keys, signatures and proofs being buffers that the caller keeps and passes back - gives exactly the results of the same program over the Rust interface, with every error turned into a panic, and after each call the buffers are exactly the compressed formats of the Rust objects. This also holds if C calls are mixed into a program that had used the Rust interface before. Hence the bookkeeper of C121 also predicts C programs: a C call panics only if the bookkeeper names an error for it, or with an empty list, or in an update when a hash repeats the seed; signatures verify under those who signed. All buffers have the announced sizes: 49, 97 and 149 bytes, and for a secret key the number that c_estimate_sk_size gives for its time stamp.",
  "all programs of C calls of any length with any number of signers, one set of well-formed parameters with the standard generator and depth at most 32; both build modes",
  "the claim is about all programs; the tests and c_wrapper/test.c contain three fixed ones",
  ["src/ffi.rs: 86-142, 149-183, 188-220, 227-275, 281-319, 323-360, 364-388, 393-398", "src/lib.rs: 110-213"])
p("The C interface on any bytes",
  "For every byte string given as secret key, c_sk_update and c_sign_present are described completely: if the bytes do not start with a secret key they panic; otherwise they do what update and sign_present do with the key found there (errors becoming panics), whatever its shape, and bytes after the key are ignored. c_sign_present never panics in any other way. c_verify panics exactly if the public key or the signature can not be read, and otherwise gives the result of verify. The bytes that c_sk_update returns hold the updated key exactly if it has at most 255 sub keys; if there are more, the number in the header is taken modulo 256, and either nothing can be read back or a key from which all later sub keys are missing. That the next update through the C interface does what it does in memory is therefore false for such keys; it is true if the key given had at most 256 minus the depth sub keys.",
  "all byte strings as keys and signatures, parameters of depth at most 32, targets, seeds, messages, build modes",
  "the inputs are all byte strings; the overflow of the header byte needs a key with at least 225 sub keys (254 at small depths), which no test makes",
  ["src/ffi.rs: 149-183, 188-220, 227-275", "src/serdes.rs: 211-236, 250-284"])
p("The scripts of pixel-python and the files they leave behind",
  "Run on any directory of Rust files, keygen.py writes the public key and the first secret key of the Rust generator, byte for byte, and ends without an exception exactly if both are in that directory. sig.py (signatures of times 1..63) and test_vector.py (everything except the proof of possession) write the generator's files one by one in its order, and stop with an exception exactly after the first file that is not in the directory with the same contents. keyupdate.py raises an exception in its first update for all parameters and directories (it passes a str as seed), so it writes and compares nothing; with the empty byte string it would check the secret keys of times 2..63 in the same way.",
  "all parameters of pixel-python's kind with at least 2016 time stamps, all directories to compare with, all earlier contents of the output directory",
  "the directory compared with is arbitrary, and the claim is about which prefix of the files is written",
  ["pixel-python/keygen.py: 80-121", "pixel-python/keyupdate.py: 179-212", "pixel-python/sig.py: 75-114", "pixel-python/test_vector.py: 26-162", "pixel-python/prng.py: 50-52", "test_vector/src/main.rs"])
p("The test vector generator on a failing file system",
  "Whatever files can not be created and wherever a write fails, test_vector/src/main.rs either ends as without failures with the same files, or returns the I/O error, and then it has written the first files of that list completely and after them at most a beginning of the next one; the second happens only if something did fail (interrupted and short writes do not count). Without failures it ends as the model of C70 does and writes the parameter files and, for each binary file of C70, a plain file before it. If a run reports success, pixel-python/test_vector.py accepts the directory, whatever was in it before.",
  "all schedules of failures, short and interrupted writes; all earlier contents of the directory; all parameters, debug formats and build modes",
  "failures of the file system at each of 506 files and at each write are not tried by any test",
  ["test_vector/src/main.rs: 8-96", "src/serdes.rs: 24-35, 72-102, 161-173, 211-236"])
p("The test targets of the Makefile",
  "make test in a fresh checkout fails at its first file and changes nothing, because no program makes the directory test_vector/test_vector its README says it will; without pixel-python/test_vector it fails before the C program. With both directories, whatever is in them, it fails only if the file system fails under the Rust generator, and then the files of Python and C are untouched; else it succeeds and leaves valid vectors on which the three programs agree. test_vector_python and test_vector_c alone succeed exactly if Rust's directory has the right contents for the files they look at, and write theirs in any case (Python up to the first difference). make clean succeeds exactly if each of the four places has something to remove, so it fails when run twice, and when the Python target was not run it leaves the secret keys that the C program wrote.",
  "all contents of the three directories, present or missing; all failures of the file system under the generator; all parameters",
  "the targets are only run by hand in directories that were prepared once",
  ["Makefile: 12-39", "test_vector/src/main.rs: 8-96", "test_vector/README.MD: 11", "pixel-python/param.py: 84-86", "pixel-python/test_vector.py: 26-162", "c_wrapper/test.c: 13-158", "test_buf/test_vector.py: 3-12"])
p("The serialisation tests on fixed strings",
  "A string is a public key, proof of possession or signature exactly if it is long enough, its first byte is a supported ciphersuite, its time (of a signature) is not zero and the codec takes the bytes at the fixed positions; the value read is made of these parts, and further bytes are ignored. The five _kat tests of serdes.rs pass exactly if the codec takes and refuses certain strings, which are listed; the signature tests ask for more than the other two only where a string runs over the border of the two points. If the codec refuses compressed strings without the first bit, they ask for nine strings in all. No string tests the uncompressed decoder of PixelG1, and only one that of PixelG2: the invalid uncompressed strings are read in compressed mode, so a codec that takes every uncompressed string passes.",
  "all codecs; all strings",
  "the tests run against one codec and do not say what they would let pass",
  ["src/test/serdes.rs: 250-712", "src/serdes.rs: 46-66", "src/serdes.rs: 108-150", "src/serdes.rs: 177-203"])
p("The memory of the secret keys handed to C",
  "c_keygen and c_sk_update return the bytes of the key if shrink_to_fit leaves no spare capacity, and else panic with the whole key in a freed block; the whole key also lies in a freed block if shrink_to_fit moves it; else freed blocks hold only beginnings of the key and of its sub keys, and none if blocks never move. With the growth of std's Vec the assertion on the capacity never fails and nothing is moved, whatever the allocator does, so the results are those of the functions without memory. But with blocks that move on growing, a caller who wipes every buffer they get is not safe: for every key they were handed that is at a node with a left turn, a freed block with its second byte, the number of sub keys, set to one signs at the key's time stamp exactly as the key, and C's verification accepts.",
  "all growth policies, allocators, keys, seeds, histories of updates",
  "freed memory is not observable in a test, and the assertion depends on the allocator",
  ["src/ffi.rs: 86-142", "src/ffi.rs: 227-275", "src/serdes.rs: 205-243"])
p("The benchmarks of the curve",
  "However often criterion runs the closures of bench_curve.rs, none panics: the counter stays inside the samples. The multiplication benchmark works in place: afterwards each point has been multiplied by the power of its scalar whose exponent is the number of runs that used it, which is the number of runs divided by the number of samples, rounded by position. The membership and pairing benchmarks compute, in run j, the subgroup test and the products of one, two and three pairings of sample j modulo the number of samples; if the points drawn are in the subgroups the unwrap never fails and the products are those of the single pairings.",
  "all environments, drawn points and scalars, numbers of samples and of runs",
  "benchmarks assert nothing; their runs are chosen by a timer",
  ["benches/benchmarks/bench_curve.rs: 11-170"])
p("Everything a call of c_sk_update leaves in freed memory",
  "One model has all heap blocks c_sk_update frees: of reading the old key, of the list of sub keys and the h-vectors in the update, of the serialization and of the Vec handed out. The result does not depend on the first three. If blocks are never moved and dropped vectors overwrite their spare slots, then a call on any bytes that returns, and one whose update fails, leaves nothing at all; so does any sequence of updates. For any allocator and a key that exists, what is left is: exactly the beginnings of the old key's vectors that were outgrown in moved blocks; sub keys of the old and new key without h-vectors; last entries of the old key's h-vectors; and beginnings of the new key's bytes or all of them.",
  "all growth policies and allocators, bytes, seeds, times, sequences of updates",
  "freed memory is not observable in a test, and allocators differ",
  ["src/ffi.rs: 227-275", "src/secret_key.rs: 151-430", "src/serdes.rs: 205-284", "src/subkeys.rs: 181-223"])
p("What a C caller's session leaves in freed memory",
  "c_keygen and c_sign_present with the heap blocks they free, besides c_sk_update. Signing gives the result it gave without memory, and leaves, whether it succeeds or not, exactly the beginnings of the key's vectors that were outgrown in moved blocks. The results of key generation and of any session of signatures and updates do not depend on the allocator if Vecs grow as in std. If blocks are never moved and spare slots are overwritten, key generation and any session that returns leave the freed memory as it was. For any allocator a session accounts for its freed blocks call by call; key generation leaves only beginnings of the key and of its sub keys, or the whole key. If the block of the list of sub keys was moved while a key was read for signing, then after a later update whoever has the new key and that block signs for the old time; and if moreover dropped vectors keep their spare slots, the blocks freed by the update alone are enough.",
  "all growth policies and allocators, keys, messages, seeds, times, sessions",
  "freed memory is not observable in a test, and allocators differ",
  ["src/ffi.rs: 86-183", "src/ffi.rs: 227-275", "src/serdes.rs: 250-284", "src/subkeys.rs: 98-128"])
p("What reading a secret key leaves on the stack",
  "SecretKey::deserialize with the seed and the points it holds in local variables. It returns what it returned without memory. On success it leaves, of each sub key, the first two entries and the last entry of the h-vector, and the seed of the prng; the seed is also left if the blob is refused after it was read. For every reachable key that is read, the cells left of any of its sub keys sign every message for the time of that sub key, without the key. The seed that is left and two signatures for different messages give a signature for every message at that time.",
  "all blobs and readers, reachable keys and their sub keys, messages, times",
  "what is left on the stack is not observable in a test",
  ["src/serdes.rs: 250-284", "src/serdes.rs: 334-365", "src/subkeys.rs: 37-44", "src/prng.rs: 65-67"])
p("What a C caller's session leaves on the stack",
  "c_keygen, c_sign_present and c_sk_update with the local variables of all functions they call. Key generation and sessions of signatures and updates return what they returned without the stack. A life that starts with key generation and goes on with any session leaves exactly: the cells of key generation (with the master secret, which signs for all times), then for each call the cells of reading the key, of signing or updating, and for an update those of the serialization. A call that fails after the key was read leaves the cells of reading too. For every call in a session, three of the cells sign any message for the time the key had at that call, however often the key is updated afterwards.",
  "all seeds, sessions, messages, times, reachable keys",
  "what is left on the stack is not observable in a test",
  ["src/ffi.rs: 86-183", "src/ffi.rs: 227-275", "src/serdes.rs: 250-284", "src/serdes.rs: 334-365"])
p("What a key's history in a Rust program leaves on the stack",
  "sign, sign_then_update and the histories of updates, signatures and reloads, with the local variables of all functions they call. Any history of any key returns the same results and ends with the same key as without the stack. From a reachable key, a history without panics leaves exactly the cells of its steps: of the update if there is one, of the signature, of the serialization and the reading of a reload; a step that is refused leaves the key as it is and nothing on the stack, except that sign_then_update at the last time leaves the randomness of the signature it does not return. sign_then_update, meant for a signer who gives up the key for a time as soon as it has signed, leaves the randomness of the update whenever that update splits a node: with the new key this recovers a key that signs any message for exactly the time given up. Any reload leaves three cells that sign any message for the time of the reload, whatever the history does afterwards. Two signatures of different messages, the second by sign_then_update, with their randomness on the stack make signatures of all messages for the time given up.",
  "all histories, messages, times, seeds, reachable keys",
  "what is left on the stack is not observable in a test",
  ["src/sig.rs: 70-160", "src/secret_key.rs: 151-430", "src/serdes.rs: 250-284", "src/serdes.rs: 334-365"])
with open('/verif/properties.jsonl','w') as f:
    for x in P: f.write(json.dumps(x)+"\n")
print(len(P))
