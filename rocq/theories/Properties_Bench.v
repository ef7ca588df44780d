(** Property C92: the outcomes of the benchmark programs (Bench.v).  Specification
    vocabulary: SpecBench.v ([outcome]: pass if the drawn times are large enough, otherwise an
    assertion fails; [drawn], [redrawn]: the drawn times; [next_histories],
    [random_histories]), SpecTest.v ([passes], [in_turn]), SpecColl.v ([breaks]),
    SpecKey.v ([pp_ok]), SpecTime.v ([last_time]). *)
From Coq Require Import String.
From Verif Require Import Base Env Time SpecTime SubKey SecretKey Keys Sig IO Serdes Api Ffi Programs Tests Bench
  SpecKey SpecSer SpecColl SpecTest SpecBench BenchProps Toy ToyRun.
Local Open Scope N_scope.

(** C92 *)
Theorem C92_update_next : forall (E : env) (L : env_laws E) m (pp : pubparam E) ps ds,
  pp_ok pp -> (2 <= pp_depth pp <= 32)%nat -> supported (pp_cs pp) ->
  ps <> [] -> Forall (fun p => (32 <= length (fst p))%nat) ps ->
  outcome m pp (next_histories pp 1 (fun t => OpUpdate (t + 1) []) ps) (all_from pp 1 2 ps) (bench_key_update_next m pp ps ds).
Proof. exact bench_next. Qed.
Print Assumptions C92_update_next.

Theorem C92_update_random : forall (E : env) (L : env_laws E) m (pp : pubparam E) ps ds,
  pp_ok pp -> (2 <= pp_depth pp <= 32)%nat -> supported (pp_cs pp) ->
  ps <> [] -> Forall (fun p => (32 <= length (fst p))%nat) ps ->
  outcome m pp (random_histories pp 2 (fun t => OpUpdate t []) ps ds) (all_from pp 2 2 ps) (bench_key_update_random m pp ps ds).
Proof. exact bench_random. Qed.
Print Assumptions C92_update_random.

Theorem C92_sign : forall (E : env) (L : env_laws E) m (pp : pubparam E) msg ps ds,
  pp_ok pp -> (2 <= pp_depth pp <= 32)%nat -> supported (pp_cs pp) ->
  ps <> [] -> Forall (fun p => (32 <= length (fst p))%nat) ps ->
  outcome m pp (random_histories pp 2 (fun t => OpSign t msg []) ps ds) (all_from pp 2 2 ps) (bench_sign m pp msg ps ds)
  /\ outcome m pp (next_histories pp 2 (fun t => OpSignPresent t msg) ps) (all_from pp 2 2 ps) (bench_sign_present m pp msg ps ds)
  /\ outcome m pp (next_histories pp 2 (fun t => OpSignThenUpdate t msg []) ps) (all_from pp 2 2 ps) (bench_sign_then_update m pp msg ps ds).
Proof. exact bench_signing. Qed.
Print Assumptions C92_sign.

Theorem C92_verify : forall (E : env) (L : env_laws E) m (pp : pubparam E) msg ps ds ds',
  pp_ok pp -> (2 <= pp_depth pp <= 32)%nat -> supported (pp_cs pp) -> pp_g2 pp = g2_one ->
  ps <> [] -> Forall (fun p => (32 <= length (fst p))%nat) ps ->
  outcome m pp (map (fun p => (fst p, [OpSign (drawn pp 2 p) msg []])) ps) (all_from pp 2 1 ps) (bench_verify m pp msg ps ds ds').
Proof. exact bench_verifying. Qed.
Print Assumptions C92_verify.

Theorem C92_benchmarks_always_pass_refuted : forall (E : env) (L : env_laws E) m (pp : pubparam E) kseed msg,
  pp_ok pp -> (2 <= pp_depth pp <= 32)%nat -> supported (pp_cs pp) -> (32 <= length kseed)%nat ->
  exists d d', bench_key_update_next m pp [(kseed, d)] [] = Panic P_ASSERT /\ bench_verify m pp msg [(kseed, d')] [] [] = Panic P_ASSERT.
Proof. exact aged_dies. Qed.
Print Assumptions C92_benchmarks_always_pass_refuted.

(** A draw of 1 ends the benchmark, a draw of 3 does not; with depth 2 no draw is large
    enough. *)
Definition tpp3 : pubparam toy := Eval vm_compute in tpp 3 0.
Example C92_example :
  pp_ok (tpp 3 0) /\ supported (pp_cs (tpp 3 0)) /\ pp_g2 (tpp 3 0) = @g2_one toy /\ drawn tpp3 1 (tseed, 9) = 3
  /\ bench_key_update_next Debug tpp3 [(tseed, 9)] [0; 0] = Ok tt
  /\ bench_key_update_next Debug tpp3 [(tseed, 7)] [] = Panic P_ASSERT
  /\ bench_verify Debug tpp3 (str "m") [(tseed, 6)] [0] [0] = Ok tt.
Proof.
  split; [apply tpp_ok; lia|]. split; [left; reflexivity|]. split; [reflexivity|]. split; [reflexivity|].
  split; [vm_cast_no_check (eq_refl (@Ok unit tt))|].
  split; [vm_cast_no_check (eq_refl (@Panic unit P_ASSERT))|]. vm_cast_no_check (eq_refl (@Ok unit tt)).
Qed.

Theorem C92_keygen : forall (E : env) (L : env_laws E) (pp : pubparam E) kseeds,
  pp_ok pp -> supported (pp_cs pp) -> Forall (fun s => (32 <= length s)%nat) kseeds -> bench_keygen pp kseeds = Ok tt.
Proof. exact bench_key_gen. Qed.
Print Assumptions C92_keygen.

Theorem C92_aggregation : forall (E : env) (L : env_laws E) m (pp : pubparam E) msg kseeds,
  pp_ok pp -> (pp_depth pp <= 32)%nat -> supported (pp_cs pp) -> kseeds <> [] -> Forall (fun s => (32 <= length s)%nat) kseeds ->
  bench_aggregation m pp msg kseeds = Ok tt.
Proof. exact bench_aggregating. Qed.
Print Assumptions C92_aggregation.

Theorem C92_update_seq : forall (E : env) (L : env_laws E) m (pp : pubparam E) kseeds rounds,
  pp_ok pp -> (pp_depth pp <= 32)%nat -> supported (pp_cs pp) -> Forall (fun s => (32 <= length s)%nat) kseeds ->
  (length rounds <= length kseeds)%nat -> N.of_nat (length rounds) < last_time (pp_depth pp) ->
  passes m pp (map (fun s => in_turn s [] (length rounds + 2)) kseeds) (bench_sk_update_seq m pp kseeds rounds).
Proof. exact bench_seq. Qed.
Print Assumptions C92_update_seq.

Theorem C92_update_leaf : forall (E : env) (L : env_laws E) m (pp : pubparam E) t0 kseeds ds ds',
  pp_ok pp -> (pp_depth pp <= 32)%nat -> supported (pp_cs pp) -> kseeds <> [] -> Forall (fun s => (32 <= length s)%nat) kseeds ->
  2 <= t0 < last_time (pp_depth pp) ->
  passes m pp (map (fun s => (s, [OpUpdate t0 []; OpUpdate (t0 + 1) []])) kseeds) (bench_sk_update_leaf m pp t0 kseeds ds ds').
Proof. exact bench_leaf. Qed.
Print Assumptions C92_update_leaf.

Theorem C92_delegate : forall (E : env) (L : env_laws E) m (pp : pubparam E) kseeds rounds,
  pp_ok pp -> supported (pp_cs pp) -> Forall (fun s => (32 <= length s)%nat) kseeds ->
  (length rounds <= length kseeds)%nat -> (length rounds < pp_depth pp)%nat ->
  bench_ssk_delegate m pp kseeds rounds = Ok tt.
Proof. exact bench_delegating. Qed.
Print Assumptions C92_delegate.

Theorem C92_randomize : forall (E : env) (L : env_laws E) m (pp : pubparam E) kseed rs rs',
  pp_ok pp -> supported (pp_cs pp) -> (32 <= length kseed)%nat -> (2 <= pp_depth pp)%nat -> (length rs < pp_depth pp)%nat ->
  bench_ssk_leveled_randomization m pp kseed rs = Ok tt /\ bench_ssk_leaf_randomization m pp kseed rs' = Ok tt.
Proof. exact bench_randomizing. Qed.
Print Assumptions C92_randomize.

Theorem C92_gamma_list : forall m d n, (d < 64)%nat -> N.of_nat n <= last_time d + 1 -> bench_gamma_list m d n = Ok tt.
Proof. exact bench_gamma. Qed.
Print Assumptions C92_gamma_list.

(** The rounds of the benchmark exceed the keys, or the depth. *)
Example C92_rounds_example :
  bench_ssk_delegate Debug tpp3 [tseed; tseed] [[0]; []] = Ok tt
  /\ bench_ssk_delegate Debug tpp3 [tseed] [[]; []] = Panic P_INDEX
  /\ bench_ssk_leveled_randomization Debug tpp3 tseed [5; 6] = Ok tt
  /\ bench_ssk_leveled_randomization Debug tpp3 tseed [5; 6; 7] = Panic P_ASSERT
  /\ bench_gamma_list Debug 3 8 = Ok tt /\ bench_gamma_list Debug 3 9 = Panic P_ASSERT.
Proof.
  split; [vm_cast_no_check (eq_refl (@Ok unit tt))|]. split; [vm_cast_no_check (eq_refl (@Panic unit P_INDEX))|].
  split; [vm_cast_no_check (eq_refl (@Ok unit tt))|]. split; [vm_cast_no_check (eq_refl (@Panic unit P_ASSERT))|].
  split; reflexivity.
Qed.
