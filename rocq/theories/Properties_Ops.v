(** Property C112: the operations in the groups that a call does (OpTrace.v) depend only on the depth, the time of the key and the
    kind and time stamp of the call, and how many they are.  Specification vocabulary: SpecOps.v ([keygen_ops], [sign_ops], [verify_ops],
    [validate_ops], [move_ops], [history_ops], [node], [key_paths], [count], [alike], [entry_cost], [left_child], [signs], [one_by_one]),
    SpecGrow.v ([right_sibs], [lefts]), SpecKey.v ([pp_ok]), SpecTime.v ([node_at], [last_time]). *)
From Coq Require Import String.
From Verif Require Import Base Env Time SpecTime Hkdf Prng SpecPrng SubKey SecretKey Keys Sig IO Serdes Api
  SpecKey SpecGrow OpTrace SpecOps OpsProps OpCountProps Toy ToyRun WitSigProps.
Local Open Scope N_scope.

(** C112 *)
Theorem C112_same_results : forall (E : env) m (pp : pubparam E) seed s (l : list (signature E)) pk pks msg sk ops,
  fst (key_gen_t seed pp []) = key_gen seed pp
  /\ fst (verify_t m s pk pp msg []) = verify m s pk pp msg
  /\ fst (aggregate_t l []) = aggregate l
  /\ fst (verify_aggregated_t m s pks pp msg []) = verify_aggregated m s pks pp msg
  /\ fst (sk_validate_t m sk pk pp []) = sk_validate m sk pk pp
  /\ fst (run_t m pp ops (sk, [])) = fst (run m pp ops sk)
  /\ fst (snd (run_t m pp ops (sk, []))) = snd (run m pp ops sk).
Proof. exact traced_results. Qed.
Print Assumptions C112_same_results.
Theorem C112_keygen : forall (E : env) (pp : pubparam E) seed pk sk pop,
  pp_ok pp -> key_gen seed pp = Ok (pk, sk, pop) -> snd (key_gen_t seed pp []) = keygen_ops (pp_depth pp).
Proof. exact keygen_trace. Qed.
Print Assumptions C112_keygen.
Theorem C112_verify : forall (E : env) m (pp : pubparam E) s pk pks msg,
  pp_ok pp ->
  (verify m s pk pp msg = Ok true -> snd (verify_t m s pk pp msg []) = verify_ops (node (pp_depth pp) (sig_time s)))
  /\ (verify_aggregated m s pks pp msg = Ok true ->
      snd (verify_aggregated_t m s pks pp msg []) = times (length pks - 1) [Add2] ++ verify_ops (node (pp_depth pp) (sig_time s))).
Proof. exact verify_trace. Qed.
Print Assumptions C112_verify.
Theorem C112_aggregate : forall (E : env) (l : list (signature E)) s,
  aggregate l = Ok s -> snd (aggregate_t l []) = times (length l - 1) [Add2; Add1].
Proof. exact aggregate_trace. Qed.
Print Assumptions C112_aggregate.
Theorem C112_validate : forall (E : env) (L : env_laws E) m (pp : pubparam E) pk pk' sk,
  pp_ok pp -> reachable m pp pk sk -> sk_validate m sk pk' pp = Ok true ->
  snd (sk_validate_t m sk pk' pp []) = flat_map validate_ops (key_paths (node (pp_depth pp) (sec_time sk))).
Proof. exact validate_trace. Qed.
Print Assumptions C112_validate.
Theorem C112_history : forall (E : env) (L : env_laws E) m (pp : pubparam E) pk sk ops,
  pp_ok pp -> reachable m pp pk sk -> forallb no_panic (fst (run m pp ops sk)) = true ->
  snd (snd (run_t m pp ops (sk, []))) = history_ops (pp_depth pp) (sec_time sk) ops.
Proof. exact history_trace. Qed.
Print Assumptions C112_history.
Theorem C112_public_only : forall (E E' : env) (L : env_laws E) (L' : env_laws E') m m' (pp : pubparam E) (pp' : pubparam E') pk pk' sk sk' ops ops',
  pp_ok pp -> pp_ok pp' -> pp_depth pp = pp_depth pp' -> reachable m pp pk sk -> reachable m' pp' pk' sk' -> sec_time sk = sec_time sk' ->
  Forall2 alike ops ops' -> forallb no_panic (fst (run m pp ops sk)) = true -> forallb no_panic (fst (run m' pp' ops' sk')) = true ->
  snd (snd (run_t m pp ops (sk, []))) = snd (snd (run_t m' pp' ops' (sk', []))).
Proof. exact history_public. Qed.
Print Assumptions C112_public_only.
Theorem C112_counts : forall d v,
  count is_mul1 (keygen_ops d) = (d + 2)%nat /\ count is_mul2 (keygen_ops d) = 2%nat
  /\ count is_mul1 (sign_ops v) = 3%nat /\ count is_mul2 (sign_ops v) = 1%nat /\ count is_pair (sign_ops v) = 0%nat
  /\ count is_mul1 (verify_ops v) = 1%nat /\ count is_mul2 (verify_ops v) = 0%nat /\ count is_pair (verify_ops v) = 1%nat
  /\ count is_pair (flat_map validate_ops (key_paths v)) = (1 + lefts v)%nat.
Proof. exact op_counts. Qed.
Print Assumptions C112_counts.
Theorem C112_update_cost : forall d t t',
  (1 <= t -> later d t t' = true ->
   (2 * count is_mul1 (move_ops d (node d t) (node d t')) <= (d - 1) * (d + 2)
    /\ count is_mul2 (move_ops d (node d t) (node d t')) <= d - 1
    /\ count is_pair (move_ops d (node d t) (node d t')) = 0)%nat)
  /\ (1 <= t -> t < last_time d ->
      count is_mul1 (move_ops d (node d t) (node d (t + 1))) = entry_cost d (node d (t + 1))
      /\ count is_mul2 (move_ops d (node d t) (node d (t + 1))) = (if left_child (node d (t + 1)) then 1 else 0)%nat).
Proof. exact update_cost. Qed.
Print Assumptions C112_update_cost.
Theorem C112_update_cost_reached : forall d, (1 <= d)%nat ->
  node_at d (N.of_nat d) (repeat 1 (d - 1)) /\ (2 * count is_mul1 (move_ops d (node d 1) (repeat 1%N (d - 1))) = (d - 1) * (d + 2))%nat.
Proof. exact update_cost_reached. Qed.
Print Assumptions C112_update_cost_reached.
Theorem C112_total_cost : forall (E : env) (L : env_laws E) m (pp : pubparam E) pk sk ops,
  pp_ok pp -> reachable m pp pk sk -> forallb no_panic (fst (run m pp ops sk)) = true ->
  (count is_mul1 (snd (snd (run_t m pp ops (sk, [])))) + pp_depth pp + 2 <= 3 * 2 ^ (pp_depth pp - 1) + 3 * length (filter signs ops)
   /\ count is_mul2 (snd (snd (run_t m pp ops (sk, [])))) + 1 <= 2 ^ (pp_depth pp - 1) + length (filter signs ops))%nat.
Proof. exact history_cost. Qed.
Print Assumptions C112_total_cost.
Theorem C112_total_cost_reached : forall (E : env) (L : env_laws E) m (pp : pubparam E) pk sk seeds,
  pp_ok pp -> reachable m pp pk sk -> sec_time sk = 1 -> 1 + N.of_nat (length seeds) = last_time (pp_depth pp) ->
  forallb no_panic (fst (run m pp (one_by_one 1 seeds) sk)) = true ->
  (count is_mul1 (snd (snd (run_t m pp (one_by_one 1 seeds) (sk, [])))) + pp_depth pp + 2 = 3 * 2 ^ (pp_depth pp - 1)
   /\ count is_mul2 (snd (snd (run_t m pp (one_by_one 1 seeds) (sk, [])))) + 1 = 2 ^ (pp_depth pp - 1))%nat.
Proof. exact history_cost_reached. Qed.
Print Assumptions C112_total_cost_reached.

(** The history of ToyRun.v on a generated key of depth 4: update to 3, sign at 6 and again, a refused update, save and load,
    sign and update to 7.  The first update makes 6 and 9 beside 3, the second 6 from 6, the last 8 beside 7. *)
Example C112_example :
  reachable Debug tpp4 tpk4 tsk4 /\ sec_time tsk4 = 1 /\ run Debug tpp4 thist tsk4 = (tres, tsk7) /\ forallb no_panic tres = true
  /\ node 4 3 = [1; 1] /\ new_paths [] [1; 1] = [[1; 1]; [1; 2]; [2]] /\ source [] [1; 1] = []
  /\ call_ops 4 1 (OpUpdate 3 (str "seed1")) =
       [Reseed; Add1; Add1; Add1; Dbl1; Add1; Draw; Mul2; Add2; Add1; Dbl1; Add1; Mul1; Add1; Mul1; Add1; Mul1; Add1;
        Dbl1; Add1; Draw; Mul2; Add2; Dbl1; Add1; Mul1; Add1; Mul1; Add1; Mul1; Add1; Mul1; Add1]
  /\ call_ops 4 3 (OpSign 6 (str "hello") (str "seed2")) =
       [Reseed; Draw; HashMsg; Mul2; Add2; Add1; Dbl1; Add1; Mul1; Add1; Mul1; Mul1; Add1; Add1]
  /\ call_ops 4 6 (OpUpdate 2 []) = []
  /\ (count is_mul1 (history_ops 4 1 thist), count is_mul2 (history_ops 4 1 thist), length (filter signs thist)) = (18, 6, 3)%nat.
Proof.
  split; [exact tsk4_reachable|]. split; [reflexivity|]. split; [exact trun_ok|]. split; [reflexivity|]. split; [reflexivity|]. split; [reflexivity|].
  split; [reflexivity|]. split; [reflexivity|]. split; [reflexivity|]. split; [reflexivity|]. reflexivity.
Qed.
(** The same operations are done for any message. *)
Example C112_example_messages :
  reachable Debug tpp4 tpk4 tsk7 /\ sec_time tsk7 = 7 /\ sign_present Debug 7 tpp4 (str "hello") tsk7 = (Ok tsig7, tsk7)
  /\ alike (OpSignPresent 7 (str "hello")) (OpSignPresent 7 (str "another message"))
  /\ forallb no_panic (fst (run Debug tpp4 [OpSignPresent 7 (str "hello")] tsk7)) = true
  /\ call_ops 4 7 (OpSignPresent 7 (str "hello")) = [Draw; HashMsg; Mul2; Add2; Add1; Dbl1; Add1; Add1; Mul1; Add1; Mul1; Mul1; Add1; Add1].
Proof.
  split; [exact tsk7_reachable|]. split; [reflexivity|]. split; [exact tsig7_ok|]. split; [reflexivity|].
  split; [|reflexivity]. cbn [run step]. unfold sbind. rewrite tsig7_ok. reflexivity.
Qed.
(** All nodes of depth 4 one by one: 18 multiplications in G1 and 7 in G2; in one go to the leftmost leaf 9. *)
Example C112_example_costs :
  1 + N.of_nat (length (repeat (@nil N) 14)) = last_time 4
  /\ count is_mul1 (history_ops 4 1 (one_by_one 1 (repeat [] 14))) = 18%nat /\ (3 * 2 ^ (4 - 1) = 18 + 4 + 2)%nat
  /\ count is_mul2 (history_ops 4 1 (one_by_one 1 (repeat [] 14))) = 7%nat
  /\ count is_mul1 (move_ops 4 [] [1; 1; 1]) = 9%nat /\ node 4 4 = [1; 1; 1]
  /\ map (fun t => count is_mul1 (move_ops 4 (node 4 t) (node 4 (t + 1)))) [1; 2; 3; 4; 5; 6; 7; 8] = [4; 3; 2; 0; 0; 2; 0; 0]%nat
  /\ call_ops 4 7 (OpUpdate 12 (str "b")) = [Reseed; Add1; Dbl1; Add1; Dbl1; Add1] ++ rerand_ops 4 [2; 2]
  /\ update Debug tpp4 12 (str "b") tsk7 = (Ok tt, tsk12).
Proof.
  split; [reflexivity|]. split; [reflexivity|]. split; [reflexivity|]. split; [reflexivity|]. split; [reflexivity|].
  split; [reflexivity|]. split; [reflexivity|]. split; [reflexivity|]. exact tsk12_ok.
Qed.
(** A generated key of depth 2 through its three time stamps (the parameters have the first generators of tpp4). *)
Definition ox_pp : pubparam toy := @PubParam toy 2 0 (pp_g2 tpp4) (pp_h tpp4) (firstn 3 (pp_hlist tpp4)).
Definition ox_kg : pubkey toy * seckey toy * proof toy := Eval vm_compute in get tdflt (key_gen tseed ox_pp).
Definition ox_run : list (res (option (signature toy))) * (seckey toy * trace) :=
  Eval vm_compute in run_t Debug ox_pp (one_by_one 1 [str "a"; str "b"]) (snd3 ox_kg, []).
Example C112_example_reached :
  pp_ok ox_pp /\ key_gen tseed ox_pp = Ok ox_kg /\ sec_time (snd3 ox_kg) = 1
  /\ run_t Debug ox_pp (one_by_one 1 [str "a"; str "b"]) (snd3 ox_kg, []) = ox_run
  /\ forallb no_panic (fst ox_run) = true /\ sec_time (fst (snd ox_run)) = last_time 2
  /\ snd (snd ox_run) = [Reseed; Add1; Dbl1; Add1; Draw; Mul2; Add2; Dbl1; Add1; Mul1; Add1; Mul1; Add1; Reseed]
  /\ snd (snd ox_run) = history_ops 2 1 (one_by_one 1 [[]; []]).
Proof.
  split.
  { destruct tpp4_ok as [_ _ Hs Hh Hg]. constructor; [cbn [ox_pp pp_depth]; lia|exact (le_n 3)| |exact Hh|exact Hg].
    apply Forall_forall. intros x Hx. apply (proj1 (Forall_forall _ _) Hs). rewrite <- (firstn_skipn 3 (pp_hlist tpp4)). apply in_or_app. left. exact Hx. }
  split; [vm_cast_no_check (eq_refl (Ok ox_kg))|]. split; [reflexivity|].
  split; [vm_cast_no_check (eq_refl ox_run)|]. split; [reflexivity|]. split; [reflexivity|]. split; reflexivity.
Qed.
