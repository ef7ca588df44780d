(** Model of the test programs of src/test (keys.rs, api.rs, sig.rs, serdes.rs, ffi.rs,
    getter.rs).  What the tests fix is an argument here: the parameters [pp] (init_without_seed
    or default), the seed of key generation, the seed of the updates (""), the message, the
    field elements, and [n] for the bound of the loops [for j in 2..16].  Console output is
    left out.  The _kat tests of serdes.rs are in KatTests.v.  Not modelled: the getter tests that
    only build a record and read its fields back, test_group_is_correct, pixel_zeroize.rs (see Default.v), and PubParam::init.
    (The vectors of prng.rs are evaluated in Properties_Prng.v.) *)
From Coq Require Import String.
From Verif Require Import Base Env Prng SubKey SecretKey Keys Sig IO Serdes Ffi Python Programs.
Local Open Scope N_scope.

(** [assert!(b)], [assert!(e.is_err())], [e.expect_err(..)] (any error will do). *)
Definition assert_ (b : bool) : res unit := if b then Ok tt else Panic P_ASSERT.
Definition expect_err {A} (r : res A) : res unit :=
  match r with Err _ => Ok tt | Ok _ => Panic P_ASSERT | Panic p => Panic p end.
Fixpoint for_each {A} (l : list A) (f : A -> res unit) : res unit :=
  match l with
  | [] => Ok tt
  | x :: l' => let! _ := f x in for_each l' f
  end.
(** A [&mut] method on a variable of the test: its result and the new value. *)
Definition mut_ok {S A} (f : st S A) (s : S) : res (A * S) :=
  match f s with
  | (Ok a, s') => Ok (a, s')
  | (Err _, _) => Panic P_ASSERT
  | (Panic p, _) => Panic p
  end.
(** [let res = sk.update(..); assert!(res.is_ok())]. *)
Definition updated {E} (m : mode) (pp : pubparam E) (t : N) (seed : bytes) (sk : seckey E) : res (seckey E) :=
  unwrap (run_mut (update m pp t seed) sk).
(** [for ssk in sk.ssk_vec() { assert!(ssk.validate(&pk, &pp)) }]. *)
Definition check_ssks {E} (m : mode) (pp : pubparam E) (pk : pubkey E) (sk : seckey E) : res unit :=
  for_each (sec_ssk sk) (fun s => assert_true (ssk_validate m s pk pp)).
(** [Signature::sign_bytes] at the time of the key, then [verify_bytes]. *)
Definition sign_check {E} (m : mode) (pp : pubparam E) (pk : pubkey E) (msg : bytes) (sk : seckey E) : res (signature E) :=
  let! sig := unwrap (sign_bytes m sk (sec_time sk) pp msg) in
  let! _ := assert_true (verify m sig pk pp msg) in
  Ok sig.

(** * src/test/keys.rs *)
(** keys.rs 10-14: negative_test_key_gen. *)
Definition negative_test_key_gen {E} (pp : pubparam E) : res unit := expect_err (key_gen [] pp).

(** keys.rs 16-24: the first two parts of negative_test_pop, for any points.  (The third
    one depends on the dependency's BLS verification.) *)
Definition negative_test_pop_cs {E} (x : G2 E) (y : G1 E) : res unit :=
  let! _ := assert_ (negb (pk_validate (PubKey 1 x) (Pop 0 y))) in
  assert_ (negb (pk_validate (PubKey 0 x) (Pop 1 y))).

(** keys.rs 31-44: negative_test_sk; the public key has ciphersuite 1. *)
Definition negative_test_sk {E} (m : mode) (pp : pubparam E) (kseed : bytes) : res unit :=
  let! (_, sk, _) := unwrap (key_gen kseed pp) in
  let! b := sk_validate m sk (PubKey 1 g2_zero) pp in
  assert_ (negb b).

(** keys.rs 46-56: test_master_key. *)
Definition test_master_key {E} (pp : pubparam E) (kseed : bytes) : res unit :=
  let! (pk, sk, _, _) := unwrap (master_key_gen kseed pp) in
  assert_ (validate_master_key pk sk pp).

(** keys.rs 64-110: test_quick_key_update. *)
Fixpoint incremental {E} (m : mode) (pp : pubparam E) (pk : pubkey E) (seed : bytes) (l : list N) (sk : seckey E) : res unit :=
  match l with
  | [] => Ok tt
  | j :: l' =>
    let! sk2 := updated m pp j seed sk in
    let! _ := check_ssks m pp pk sk2 in
    incremental m pp pk seed l' sk2
  end.
Definition test_quick_key_update {E} (m : mode) (pp : pubparam E) (kseed seed : bytes) (n : nat) : res unit :=
  let! (pk, sk, pop) := unwrap (key_gen kseed pp) in
  let! _ := assert_ (pk_validate pk pop) in
  let! _ := for_each (range 2 n) (fun j =>
    let! sk2 := updated m pp j seed sk in
    let! _ := assert_ (negb (prng_eqb (sec_prng sk) (sec_prng sk2))) in
    check_ssks m pp pk sk2) in
  incremental m pp pk seed (range 2 n) sk.

(** keys.rs 123-170: test_long_key_update. *)
Definition test_long_key_update {E} (m : mode) (pp : pubparam E) (kseed seed : bytes) (n : nat) : res unit :=
  let! (pk, sk, pop) := unwrap (key_gen kseed pp) in
  let! _ := assert_ (pk_validate pk pop) in
  for_each (seq 2 (n - 2)) (fun j =>
    let! sk2 := updated m pp (N.of_nat j) seed sk in
    let! _ := for_each (range (j + 1) n) (fun i =>
      let! sk3 := updated m pp i seed sk2 in
      check_ssks m pp pk sk3) in
    check_ssks m pp pk sk2).

(** keys.rs 172-198: test_sk_validation. *)
Definition test_sk_validation {E} (m : mode) (pp : pubparam E) (kseed seed : bytes) (n : nat) : res unit :=
  let! (pk, sk, pop) := unwrap (key_gen kseed pp) in
  let! _ := assert_ (pk_validate pk pop) in
  let! _ := assert_true (sk_validate m sk pk pp) in
  for_each (range 2 n) (fun j =>
    let! sk2 := updated m pp j seed sk in
    assert_true (sk_validate m sk2 pk pp)).

(** keys.rs 202-244: test_long_sk_validation. *)
Definition test_long_sk_validation {E} (m : mode) (pp : pubparam E) (kseed seed : bytes) (n : nat) : res unit :=
  let! (pk, sk, pop) := unwrap (key_gen kseed pp) in
  let! _ := assert_ (pk_validate pk pop) in
  let! _ := assert_true (sk_validate m sk pk pp) in
  for_each (seq 2 (n - 2)) (fun j =>
    let! sk2 := updated m pp (N.of_nat j) seed sk in
    let! _ := assert_true (sk_validate m sk2 pk pp) in
    for_each (range (j + 1) n) (fun i =>
      let! sk3 := updated m pp i seed sk2 in
      assert_true (sk_validate m sk3 pk pp))).

(** keys.rs 246-289: test_key_gen.  The buffers are made with vec![0u8; size]; writing to
    a Vec appends. *)
Definition test_key_gen {E} (m : mode) (pp : pubparam E) (msk r : N) : res unit :=
  let alpha := g1_mul msk (pp_h pp) in
  let! t := ssk_init pp alpha r in
  let! t1 := unwrap (ssk_init_from_randomization m pp alpha r) in
  let! _ := assert_ (g2_eqb (sk_g2r t) (sk_g2r t1)) in
  let! _ := assert_ (g1_eqb (sk_hpoly t) (sk_hpoly t1)) in
  let! b := unwrap (to_vec (ssk_serialize t true)) in
  let! b1 := unwrap (to_vec (ssk_serialize t1 true)) in
  assert_ (bytes_eqb (repeat 0 (ssk_size t) ++ b) (repeat 0 (ssk_size t) ++ b1)).

(** keys.rs 291-341: test_randomization. *)
Definition test_randomization {E} (m : mode) (pp : pubparam E) (msk r r2 : N) : res unit :=
  let alpha := g1_mul msk (pp_h pp) in
  let! pk := unwrap (pk_init pp (g2_mul msk (pp_g2 pp))) in
  let! t := ssk_init pp alpha r in
  let! _ := assert_true (ssk_validate m t pk pp) in
  let! t := unwrap (run_mut (randomization m pp r2) t) in
  assert_true (ssk_validate m t pk pp).

(** keys.rs 343-458: test_delegate; the times are 2..5, the last one is [n - 1]. *)
Definition delegate_check {E} (m : mode) (pp : pubparam E) (pk : pubkey E) (r2 i : N) (t : subkey E) : res (subkey E) :=
  let! t := unwrap (run_mut (delegate m i (pp_depth pp)) t) in
  let! _ := assert_true (ssk_validate m t pk pp) in
  let! t := unwrap (run_mut (randomization m pp r2) t) in
  let! _ := assert_true (ssk_validate m t pk pp) in
  Ok t.
Fixpoint delegate_steps {E} (m : mode) (pp : pubparam E) (pk : pubkey E) (r2 : N) (l : list N) (t : subkey E) : res unit :=
  match l with
  | [] => Ok tt
  | i :: l' => let! t := delegate_check m pp pk r2 i t in delegate_steps m pp pk r2 l' t
  end.
Definition test_delegate {E} (m : mode) (pp : pubparam E) (msk r r2 : N) (n : nat) : res unit :=
  let alpha := g1_mul msk (pp_h pp) in
  let! pk := unwrap (pk_init pp (g2_mul msk (pp_g2 pp))) in
  let! t1 := ssk_init pp alpha r in
  let! _ := assert_true (ssk_validate m t1 pk pp) in
  let! t := unwrap (run_mut (randomization m pp r2) t1) in
  let! _ := assert_true (ssk_validate m t pk pp) in
  let! _ := delegate_steps m pp pk r2 (range 2 n) t in
  for_each (range 2 n) (fun i => let! _ := delegate_check m pp pk r2 i t1 in Ok tt).

(** * src/test/api.rs *)
(** api.rs 7-44: test_pixel_api. *)
Fixpoint api_present {E} (m : mode) (pp : pubparam E) (pk : pubkey E) (msg seed : bytes) (l : list N) (sk : seckey E) : res unit :=
  match l with
  | [] => Ok tt
  | j :: l' =>
    let! (_, sk) := mut_ok (update m pp j seed) sk in
    let! (sig, sk) := mut_ok (sign m j pp msg seed) sk in
    let! _ := assert_true (verify m sig pk pp msg) in
    api_present m pp pk msg seed l' sk
  end.
Definition test_pixel_api {E} (m : mode) (pp : pubparam E) (kseed msg seed : bytes) (n : nat) : res unit :=
  let! (pk, sk, pop) := unwrap (key_gen kseed pp) in
  let! _ := assert_ (pk_validate pk pop) in
  let sk2 := sk in
  let! (sig, sk) := mut_ok (sign m 1 pp msg seed) sk in
  let! _ := assert_true (verify m sig pk pp msg) in
  let! _ := api_present m pp pk msg seed (range 2 n) sk in
  for_each (range 2 n) (fun j =>
    let! (sig, _) := mut_ok (sign m j pp msg seed) sk2 in
    assert_true (verify m sig pk pp msg)).

(** * src/test/sig.rs *)
(** sig.rs 9-17: test_must_fails_seed, the part on key generation. *)
Definition test_must_fails_seed {E} (pp : pubparam E) : res unit := expect_err (key_gen [] pp).

(** sig.rs 19-76: test_must_fails_mismatch; pp2 is a clone of pp1. *)
Definition assert_false (r : res bool) : res unit := let! b := r in assert_ (negb b).
Definition test_must_fails_mismatch {E} (m : mode) (pp1 pp3 : pubparam E) (kseed1 kseed2 kseed3 msg1 msg2 : bytes) : res unit :=
  let! (pk1, sk1, pop1) := unwrap (key_gen kseed1 pp1) in
  let! (pk2, sk2, pop2) := unwrap (key_gen kseed2 pp1) in
  let! (pk3, _, pop3) := unwrap (key_gen kseed3 pp3) in
  let! _ := assert_ (pk_validate pk1 pop1) in
  let! _ := assert_ (negb (pk_validate pk1 pop2)) in
  let! _ := assert_ (negb (pk_validate pk1 pop3)) in
  let! _ := assert_ (pk_validate pk2 pop2) in
  let! _ := assert_ (negb (pk_validate pk2 pop1)) in
  let! _ := assert_ (negb (pk_validate pk2 pop3)) in
  let! _ := assert_ (pk_validate pk3 pop3) in
  let! _ := assert_ (negb (pk_validate pk3 pop1)) in
  let! _ := assert_ (negb (pk_validate pk3 pop2)) in
  let! sig11 := unwrap (sign_bytes m sk1 1 pp1 msg1) in
  let! sig12 := unwrap (sign_bytes m sk1 1 pp1 msg2) in
  let! _ := assert_true (verify m sig11 pk1 pp1 msg1) in
  let! _ := assert_false (verify m sig11 pk2 pp1 msg1) in
  let! _ := assert_false (verify m sig11 pk1 pp3 msg1) in
  let! _ := assert_false (verify m sig11 pk1 pp1 msg2) in
  let! _ := assert_false (verify m sig12 pk1 pp1 msg1) in
  let! sig21 := unwrap (sign_bytes m sk2 1 pp1 msg1) in
  let! sig22 := unwrap (sign_bytes m sk2 1 pp1 msg2) in
  let! _ := assert_true (verify m sig21 pk2 pp1 msg1) in
  let! _ := assert_false (verify m sig21 pk1 pp1 msg1) in
  let! _ := assert_false (verify m sig21 pk1 pp3 msg1) in
  let! _ := assert_false (verify m sig21 pk1 pp1 msg2) in
  assert_false (verify m sig22 pk1 pp1 msg1).

(** sig.rs 78-121: test_must_fails_time_stamp. *)
Definition test_must_fails_time_stamp {E} (m : mode) (pp : pubparam E) (kseed msg : bytes) : res unit :=
  let! (_, sk, _) := unwrap (key_gen kseed pp) in
  let sk2 := sk in
  let! _ := expect_err (fst (sign_present m 2 pp msg sk)) in
  let! (_, sk2) := mut_ok (update m pp 10 []) sk2 in
  let! _ := for_each [0; 9; 11] (fun t => expect_err (fst (sign_present m t pp msg sk2))) in
  let! _ := for_each [0; 9] (fun t => expect_err (fst (sign m t pp msg [] sk2))) in
  let! (_, sk2) := mut_ok (sign m 10 pp msg []) sk2 in
  for_each [0; 9; 10] (fun t => expect_err (fst (update m pp t [] sk2))).

(** sig.rs 128-156: test_quick_signature_tests. *)
Definition test_quick_signature_tests {E} (m : mode) (pp : pubparam E) (kseed msg seed : bytes) (n : nat) : res unit :=
  let! (pk, sk, pop) := unwrap (key_gen kseed pp) in
  let! _ := assert_ (pk_validate pk pop) in
  let! sig := unwrap (sign_bytes m sk 1 pp msg) in
  let! _ := assert_true (verify m sig pk pp msg) in
  for_each (range 2 n) (fun j =>
    let! sk2 := updated m pp j seed sk in
    let! _ := sign_check m pp pk msg sk2 in Ok tt).

(** sig.rs 160-210: test_long_signature_tests. *)
Definition test_long_signature_tests {E} (m : mode) (pp : pubparam E) (kseed msg seed : bytes) (n : nat) : res unit :=
  let! (pk, sk, pop) := unwrap (key_gen kseed pp) in
  let! _ := assert_ (pk_validate pk pop) in
  let! sig := unwrap (sign_bytes m sk 1 pp msg) in
  let! _ := assert_true (verify m sig pk pp msg) in
  for_each (seq 2 (n - 2)) (fun j =>
    let! sk2 := updated m pp (N.of_nat j) seed sk in
    let! _ := assert_true (sk_validate m sk2 pk pp) in
    let! _ := for_each (range (j + 1) n) (fun i =>
      let! sk3 := updated m pp i seed sk2 in
      let! _ := assert_true (sk_validate m sk3 pk pp) in
      let! _ := sign_check m pp pk msg sk3 in Ok tt) in
    let! _ := sign_check m pp pk msg sk2 in Ok tt).

(** sig.rs 218-276 and 284-343: test_quick_aggregated_signature_tests and
    test_long_aggregated_signature_tests (the same program); [kseeds] are the ten seeds.
    The signatures at the later times are checked one by one, what is aggregated is the
    list of the signatures for time 1, again and again. *)
Fixpoint agg_keys {E} (pp : pubparam E) (kseeds : list bytes) : res (list (pubkey E * seckey E)) :=
  match kseeds with
  | [] => Ok []
  | s :: l =>
    let! (pk, sk, pop) := unwrap (key_gen s pp) in
    let! _ := assert_ (pk_validate pk pop) in
    let! r := agg_keys pp l in
    Ok ((pk, sk) :: r)
  end.
Fixpoint agg_sigs {E} (m : mode) (pp : pubparam E) (msg : bytes) (l : list (pubkey E * seckey E)) : res (list (signature E)) :=
  match l with
  | [] => Ok []
  | (pk, sk) :: l' =>
    let! sig := unwrap (sign_bytes m sk 1 pp msg) in
    let! _ := assert_true (verify m sig pk pp msg) in
    let! r := agg_sigs m pp msg l' in
    Ok (sig :: r)
  end.
Definition agg_check_all {E} (m : mode) (pp : pubparam E) (msg : bytes) (pks : list (pubkey E)) (sigs : list (signature E)) : res unit :=
  let! agg := unwrap (aggregate sigs) in
  assert_true (verify_aggregated m agg pks pp msg).
Definition test_aggregated_signature_tests {E} (m : mode) (pp : pubparam E) (kseeds : list bytes) (msg seed : bytes) (n : nat) : res unit :=
  let! keys := agg_keys pp kseeds in
  let! sigs := agg_sigs m pp msg keys in
  let! _ := agg_check_all m pp msg (map fst keys) sigs in
  for_each (range 2 n) (fun j =>
    let! _ := for_each keys (fun k =>
      let! sk2 := updated m pp j seed (snd k) in
      let! _ := sign_check m pp (fst k) msg sk2 in Ok tt) in
    agg_check_all m pp msg (map fst keys) sigs).

(** * src/test/serdes.rs *)
(** Serialize into a fresh Vec, compare the length, deserialize, compare. *)
Definition save_load {A} (ser : st writer unit) (len : nat) (de : st reader A) (eqb : A -> bool) : res unit :=
  let! b := unwrap (to_vec ser) in
  let! _ := assert_ (length b =? len)%nat in
  let! a := unwrap (from_slice de b) in
  assert_ (eqb a).

(** serdes.rs 17-47: test_ssk_serialization_rand. *)
Definition test_ssk_serialization_rand {E} (pp : pubparam E) (msk r : N) : res unit :=
  let! t := ssk_init pp (g1_mul msk (pp_h pp)) r in
  save_load (ssk_serialize t true) (ssk_size t) (ssk_deserialize true) (ssk_eqb t).

(** serdes.rs 49-114: test_sk_serialization_rand. *)
Definition sk_size_check {E} (m : mode) (pp : pubparam E) (t : N) (sk : seckey E) : res unit :=
  let! est := unwrap (estimate_size m t (pp_depth pp)) in
  let! _ := assert_ (sk_size sk =? est)%nat in
  save_load (sk_serialize sk true) (sk_size sk) (sk_deserialize true) (sk_eqb sk).
Definition test_sk_serialization_rand {E} (m : mode) (pp : pubparam E) (kseed seed : bytes) (n : nat) : res unit :=
  let! (pk, sk, pop) := unwrap (key_gen kseed pp) in
  let! _ := assert_ (pk_validate pk pop) in
  let! _ := sk_size_check m pp 1 sk in
  for_each (range 2 n) (fun j =>
    let! sk2 := updated m pp j seed sk in
    let! _ := assert_true (sk_validate m sk2 pk pp) in
    sk_size_check m pp j sk2).

(** serdes.rs 116-142: test_pk_serialization_rand. *)
Definition test_pk_serialization_rand {E} (pp : pubparam E) (kseed : bytes) : res unit :=
  let! (pk, sk, pop) := unwrap (key_gen kseed pp) in
  let! _ := assert_ (pk_validate pk pop) in
  save_load (pk_serialize pk true) PK_LEN (pk_deserialize true) (pk_eqb pk).

(** serdes.rs 144-169: test_signature_serialization_rand. *)
Definition test_signature_serialization_rand {E} (m : mode) (pp : pubparam E) (kseed msg : bytes) : res unit :=
  let! (pk, sk, pop) := unwrap (key_gen kseed pp) in
  let! _ := assert_ (pk_validate pk pop) in
  let! sig := unwrap (sign_bytes m sk 1 pp msg) in
  let! _ := assert_true (verify m sig pk pp msg) in
  save_load (sig_serialize sig true) SIG_LEN (sig_deserialize true) (sig_eqb sig).

(** serdes.rs 171-210 and 212-248: test_g1_serialization_rand and
    test_g2_serialization_rand, for any points (there: zero and one). *)
Definition test_g1_serialization_rand {E : env} (l : list (G1 E)) : res unit :=
  for_each [true; false] (fun c => for_each l (fun x =>
    save_load (write_all (g1_enc c x)) (if c then 96 else 192) (g1_read c) (g1_eqb x))).
Definition test_g2_serialization_rand {E : env} (l : list (G2 E)) : res unit :=
  for_each [true; false] (fun c => for_each l (fun x =>
    save_load (write_all (g2_enc c x)) (if c then 48 else 96) (g2_read c) (g2_eqb x))).

(** * src/test/ffi.rs *)
(** ffi.rs 5-30: test_pixel_ffi_basic.  The updates all start from the key of key
    generation, which c_sk_update leaves as it is; their seed is the seed of key
    generation. *)
Definition test_pixel_ffi_basic {E} (m : mode) (pp : pubparam E) (seed msg : bytes) (n : nat) : res unit :=
  let! _ := c_estimate_sk_size m 1 c_get_depth in
  let! (pk, sk, pop) := c_keygen pp seed in
  let! _ := assert_true (@c_verify_pop E pk pop) in
  let! sig := c_sign_present m pp sk msg 1 in
  let! _ := assert_true (c_verify m pp pk msg sig) in
  for_each (range 2 n) (fun j =>
    let! sk_new := c_sk_update m pp sk seed j in
    let! sig := c_sign_present m pp sk_new msg j in
    assert_true (c_verify m pp pk msg sig)).

(** ffi.rs 32-56: test_pixel_ffi_aggregation. *)
Definition test_pixel_ffi_aggregation {E} (m : mode) (pp : pubparam E) (seed1 seed2 msg : bytes) : res unit :=
  let! (pk1, sk1, _) := c_keygen pp seed1 in
  let! (pk2, sk2, _) := c_keygen pp seed2 in
  let! sig1 := c_sign_present m pp sk1 msg 1 in
  let! sig2 := c_sign_present m pp sk2 msg 1 in
  let! agg := @c_aggregation E [sig1; sig2] in
  assert_true (c_verify_agg m pp [pk1; pk2] msg agg).

(** * src/test/getter.rs *)
(** getter.rs 29-38: test_sk_getter; 49-60: test_ssk_getter. *)
Definition test_sk_getter {E} (pp : pubparam E) (kseed : bytes) : res unit :=
  let! (_, sk, _) := unwrap (key_gen kseed pp) in
  let! _ := assert_ (sec_cs sk =? 0) in
  let! _ := assert_ (sec_time sk =? 1) in
  let! _ := unwrap (sk_digest sk) in
  Ok tt.
Definition test_ssk_getter {E} (pp : pubparam E) (kseed : bytes) : res unit :=
  let! (_, sk, _) := unwrap (key_gen kseed pp) in
  let! ssk := unwrap (first_ssk sk) in
  assert_ (sk_t ssk =? 1).
