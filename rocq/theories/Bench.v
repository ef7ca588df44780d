(** Model of the benchmark programs in benches/benchmarks, except bench_curve.rs (BenchCurve.v) and
    bench_param.  Random seeds and numbers are arguments, so is the number of runs of the
    closure given to [b.iter]; SAMPLES is the length of the list of seeds.  Parameters [pp]:
    param_default() or param_gen(seed, 0).unwrap().  Names for the reports are left out. *)
From Verif Require Import Base Env Time Prng SubKey SecretKey Keys Sig IO Serdes Ffi Programs Tests.
Local Open Scope N_scope.

(** crate rand 0.4: [gen_range(low, high)] asserts low < high; [d] is what the generator
    supplies. *)
Definition gen_range (low high d : N) : res N :=
  if low <? high then Ok (low + d mod (high - low)) else Panic P_ASSERT.
(** [let max_time = (1 << param.depth()) - 1], a u64. *)
Definition max_time {E} (m : mode) (pp : pubparam E) : res N :=
  let! x := shl64 m (pp_depth pp) in sub64 m x 1.

(** [b.iter(|| { .. list[counter] ..; counter = (counter + 1) % SAMPLES })]: one run for each
    element of [ds], the numbers drawn in the runs. *)
Fixpoint iter {S} (l : list S) (counter : nat) (ds : list N) (body : S -> N -> res unit) : res unit :=
  match ds with
  | [] => Ok tt
  | d :: ds' =>
    match nth_error l counter with
    | None => Panic P_INDEX
    | Some s =>
      let! _ := body s d in
      match l with [] => Panic P_ARITH | _ => iter l ((counter + 1) mod length l) ds' body end
    end
  end.
Fixpoint for_list {A B} (l : list A) (f : A -> res B) : res (list B) :=
  match l with
  | [] => Ok []
  | x :: l' => let! y := f x in let! r := for_list l' f in Ok (y :: r)
  end.

(** bench_api.rs 26-42: bench_keygen. *)
Definition bench_keygen {E} (pp : pubparam E) (kseeds : list bytes) : res unit :=
  for_each kseeds (fun s => let! _ := unwrap (key_gen s pp) in Ok tt).

(** bench_api.rs 58-69, 97-108, 138-149, 178-189, 217-228: a key updated to a random time
    below max_time - k. *)
Definition aged_key {E} (m : mode) (pp : pubparam E) (k : N) (p : bytes * N) : res (seckey E) :=
  let! mx := max_time m pp in
  let! (_, sk, _) := unwrap (key_gen (fst p) pp) in
  let! hi := sub64 m mx k in
  let! t := gen_range 0 hi (snd p) in
  updated m pp t [] sk.

(** bench_api.rs 46-81: bench_key_update_next. *)
Definition bench_key_update_next {E} (m : mode) (pp : pubparam E) (ps : list (bytes * N)) (ds : list N) : res unit :=
  let! sks := for_list ps (aged_key m pp 1) in
  iter sks 0 ds (fun sk _ =>
    let! t := add64 m (sec_time sk) 1 in
    let! _ := updated m pp t [] sk in Ok tt).

(** bench_api.rs 85-121: bench_key_update_random. *)
Definition bench_key_update_random {E} (m : mode) (pp : pubparam E) (ps : list (bytes * N)) (ds : list N) : res unit :=
  let! mx := max_time m pp in
  let! sks := for_list ps (aged_key m pp 2) in
  iter sks 0 ds (fun sk d =>
    let! lo := add64 m (sec_time sk) 1 in
    let! hi := sub64 m mx 1 in
    let! t := gen_range lo hi d in
    let! _ := updated m pp t [] sk in Ok tt).

(** bench_api.rs 125-161: bench_sign. *)
Definition bench_sign {E} (m : mode) (pp : pubparam E) (msg : bytes) (ps : list (bytes * N)) (ds : list N) : res unit :=
  let! mx := max_time m pp in
  let! sks := for_list ps (aged_key m pp 2) in
  iter sks 0 ds (fun sk d =>
    let! lo := add64 m (sec_time sk) 1 in
    let! hi := sub64 m mx 1 in
    let! t := gen_range lo hi d in
    let! _ := mut_ok (sign m t pp msg []) sk in Ok tt).

(** bench_api.rs 165-200: bench_sign_present. *)
Definition bench_sign_present {E} (m : mode) (pp : pubparam E) (msg : bytes) (ps : list (bytes * N)) (ds : list N) : res unit :=
  let! sks := for_list ps (aged_key m pp 2) in
  iter sks 0 ds (fun sk _ => let! _ := mut_ok (sign_present m (sec_time sk) pp msg) sk in Ok tt).

(** bench_api.rs 204-241: bench_sign_then_update. *)
Definition bench_sign_then_update {E} (m : mode) (pp : pubparam E) (msg : bytes) (ps : list (bytes * N)) (ds : list N) : res unit :=
  let! sks := for_list ps (aged_key m pp 2) in
  iter sks 0 ds (fun sk _ =>
    let! (_, sk') := mut_ok (sign_then_update m (sec_time sk) pp msg []) sk in
    let! t := add64 m (sec_time sk) 1 in
    assert_ (sec_time sk' =? t)).

(** bench_api.rs 245-295: bench_verify; [ds] and [ds'] are the runs of the two closures. *)
Definition signed {E} (m : mode) (pp : pubparam E) (msg : bytes) (p : bytes * N) : res (pubkey E * proof E * signature E) :=
  let! mx := max_time m pp in
  let! (pk, sk, pop) := unwrap (key_gen (fst p) pp) in
  let! hi := sub64 m mx 2 in
  let! t := gen_range 0 hi (snd p) in
  let! (sig, _) := mut_ok (sign m t pp msg []) sk in
  Ok (pk, pop, sig).
Definition bench_verify {E} (m : mode) (pp : pubparam E) (msg : bytes) (ps : list (bytes * N)) (ds ds' : list N) : res unit :=
  let! l := for_list ps (signed m pp msg) in
  let! _ := iter l 0 ds (fun x _ => let '(pk, pop, _) := x in assert_ (pk_validate pk pop)) in
  iter l 0 ds' (fun x _ => let '(pk, _, sig) := x in assert_true (verify m sig pk pp msg)).

(** bench_api.rs 299-346: bench_aggregation (the two closures are run at least once; more
    runs repeat the same). *)
Definition bench_aggregation {E} (m : mode) (pp : pubparam E) (msg : bytes) (kseeds : list bytes) : res unit :=
  let! l := for_list kseeds (fun s =>
    let! (pk, sk, _) := unwrap (key_gen s pp) in
    let! (sig, _) := mut_ok (sign m 1 pp msg []) sk in
    Ok (pk, sig)) in
  let! sig := unwrap (aggregate (map snd l)) in
  assert_true (verify_aggregated m sig (map fst l) pp msg).

(** bench_sk_ops.rs 9-58: bench_sk_update_seq; [rounds] has the runs of the closure in each
    of the 64 rounds, [i] is the number of the round. *)
Fixpoint seq_rounds {E} (m : mode) (pp : pubparam E) (i : nat) (rounds : list (list N)) (sks : list (seckey E)) : res unit :=
  match rounds with
  | [] => Ok tt
  | ds :: rounds' =>
    let! _ := match nth_error sks i with None => Panic P_INDEX | Some sk => add64 m (sec_time sk) 1 end in
    let! _ := iter sks 0 ds (fun sk _ =>
      let! t := add64 m (sec_time sk) 1 in
      let! _ := updated m pp t [] sk in Ok tt) in
    let! sks' := for_list sks (fun sk => let! t := add64 m (sec_time sk) 1 in updated m pp t [] sk) in
    seq_rounds m pp (S i) rounds' sks'
  end.
Definition fresh_key {E} (pp : pubparam E) (s : bytes) : res (seckey E) :=
  let! (_, sk, _) := unwrap (key_gen s pp) in Ok sk.
Definition bench_sk_update_seq {E} (m : mode) (pp : pubparam E) (kseeds : list bytes) (rounds : list (list N)) : res unit :=
  let! sks := for_list kseeds (fresh_key pp) in
  seq_rounds m pp 0 rounds sks.

(** bench_sk_ops.rs 62-140: bench_sk_update_leaf; [t0] is 31. *)
Definition bench_sk_update_leaf {E} (m : mode) (pp : pubparam E) (t0 : N) (kseeds : list bytes) (ds ds' : list N) : res unit :=
  let! sks := for_list kseeds (fun s => let! sk := fresh_key pp s in updated m pp t0 [] sk) in
  let! _ := match sks with [] => Panic P_INDEX | sk :: _ => add64 m (sec_time sk) 1 end in
  let! _ := iter sks 0 ds (fun sk _ => let! _ := unwrap (sk_digest sk) in Ok tt) in
  iter sks 0 ds' (fun sk _ =>
    let! t := add64 m (sec_time sk) 1 in
    let! _ := updated m pp t [] sk in Ok tt).

(** bench_ssk_ops.rs 13-63: bench_ssk_delegate; one list of runs for each of the depth - 1
    rounds. *)
Definition fresh_ssk {E} (pp : pubparam E) (s : bytes) : res (subkey E) :=
  let! sk := fresh_key pp s in unwrap (first_ssk sk).
Definition delegate_next {E} (m : mode) (pp : pubparam E) (ssk : subkey E) : res (subkey E) :=
  let! t := add64 m (sk_t ssk) 1 in
  unwrap (run_mut (delegate m t (pp_depth pp)) ssk).
Fixpoint delegate_rounds {E} (m : mode) (pp : pubparam E) (i : nat) (rounds : list (list N)) (ssks : list (subkey E)) : res unit :=
  match rounds with
  | [] => Ok tt
  | ds :: rounds' =>
    let! _ := match nth_error ssks i with None => Panic P_INDEX | Some ssk => add64 m (sk_t ssk) 1 end in
    let! _ := iter ssks 0 ds (fun ssk _ => let! _ := delegate_next m pp ssk in Ok tt) in
    let! ssks' := for_list ssks (delegate_next m pp) in
    delegate_rounds m pp (S i) rounds' ssks'
  end.
Definition bench_ssk_delegate {E} (m : mode) (pp : pubparam E) (kseeds : list bytes) (rounds : list (list N)) : res unit :=
  let! ssks := for_list kseeds (fresh_ssk pp) in
  delegate_rounds m pp 0 rounds ssks.

(** bench_ssk_ops.rs 67-109: bench_ssk_leveled_randomization; one scalar for each of the
    depth - 1 rounds (all runs of a round do the same). *)
Fixpoint rand_rounds {E} (m : mode) (pp : pubparam E) (rs : list N) (ssk : subkey E) : res unit :=
  match rs with
  | [] => Ok tt
  | r :: rs' =>
    let! _ := unwrap (run_mut (randomization m pp r) ssk) in
    let! ssk' := delegate_next m pp ssk in
    rand_rounds m pp rs' ssk'
  end.
Definition bench_ssk_leveled_randomization {E} (m : mode) (pp : pubparam E) (kseed : bytes) (rs : list N) : res unit :=
  let! ssk := fresh_ssk pp kseed in rand_rounds m pp rs ssk.

(** bench_ssk_ops.rs 113-149: bench_ssk_leaf_randomization; the same sub key is randomized
    again and again. *)
Fixpoint rand_again {E} (m : mode) (pp : pubparam E) (rs : list N) (ssk : subkey E) : res unit :=
  match rs with
  | [] => Ok tt
  | r :: rs' => let! ssk' := unwrap (run_mut (randomization m pp r) ssk) in rand_again m pp rs' ssk'
  end.
Definition bench_ssk_leaf_randomization {E} (m : mode) (pp : pubparam E) (kseed : bytes) (rs : list N) : res unit :=
  let! ssk := fresh_ssk pp kseed in
  let! ssk := unwrap (run_mut (delegate m (N.of_nat (pp_depth pp)) (pp_depth pp)) ssk) in
  rand_again m pp rs ssk.

(** bench_time.rs 6-19: bench_gamma_list; depth 32 and the times 1..64 in the source. *)
Definition bench_gamma_list (m : mode) (d n : nat) : res unit :=
  for_each (range 1 n) (fun t =>
    let! tv := unwrap (tv_init m t d) in
    let! _ := unwrap (gamma_list m tv d) in Ok tt).
