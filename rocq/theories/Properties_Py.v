(** Property C47: the Rust crate and pixel-python.
    Specification vocabulary: SpecPy.v ([py_params], [py_view], [py_vector],
    [rust_vector]), SpecFfi.v ([increasing]), SpecTime.v ([last_time], [node_at]),
    SpecColl.v ([updates], [breaks]: the hash function breaks within the history). *)
From Coq Require Import String.
From Verif Require Import Base Env Time Hkdf SpecTime Prng SubKey SecretKey Keys Sig IO Serdes Api Python
  SpecKey SpecSer SpecUpdate SpecColl SpecFfi SpecPy PyProps Toy ToyRun WitSigProps WitPyProps.
Local Open Scope N_scope.

(** C47: same public key, secret key and signature bytes, for every seed, update path and
    message.  (Rust panics if its prng comes back to an old state; Python does not look.) *)
Theorem C47_same_bytes : forall (E : env) (L : env_laws E) m (pp : pubparam E) seed l msg,
  pp_ok pp -> py_params pp ->
  (32 <= length seed)%nat -> increasing 1 (last_time (pp_depth pp)) l ->
  exists b, py_vector pp seed l msg = Some b
            /\ (rust_vector m pp seed l msg = Ok b
                \/ (rust_vector m pp seed l msg = Panic P_PRNG /\ breaks m pp [(seed, updates l)])).
Proof. exact py_vector_agrees. Qed.
Print Assumptions C47_same_bytes.

Definition pyl : list (N * bytes) := [(3, str "a"); (4, []); (9, str "b"); (12, [])].
Definition pyv : bytes * bytes * bytes := Eval vm_compute in get ([], [], []) (rust_vector Debug tpp4 tseed pyl (str "hello")).
Example C47_example :
  pp_ok tpp4 /\ py_params tpp4 /\ (32 <= length tseed)%nat /\ increasing 1 (last_time (pp_depth tpp4)) pyl
  /\ rust_vector Debug tpp4 tseed pyl (str "hello") = Ok pyv /\ py_vector tpp4 tseed pyl (str "hello") = Some pyv
  /\ (length (fst3 pyv), length (snd3 pyv), length (snd pyv)) = (49, 652, 149)%nat.
Proof.
  split; [exact tpp4_ok|]. split; [constructor; cbn; lia|]. split; [vm_compute; lia|].
  split; [cbn; repeat split; intros H; discriminate H|].
  split; [vm_cast_no_check (eq_refl (Ok pyv))|]. split; [vm_cast_no_check (eq_refl (Some pyv))|].
  vm_compute. reflexivity.
Qed.

(** Step by step. *)
Theorem C47_key_gen : forall (E : env) (L : env_laws E) (pp : pubparam E) seed pk sk pop,
  pp_ok pp -> py_params pp ->
  key_gen seed pp = Ok (pk, sk, pop) -> py_key_gen pp seed = Some (pk_pk pk, py_view sk).
Proof. exact py_key_gen_agrees. Qed.
Print Assumptions C47_key_gen.

Theorem C47_sk_update : forall (E : env) (L : env_laws E) m (pp : pubparam E) pk sk tar seed,
  pp_ok pp -> py_params pp -> reachable m pp pk sk -> sec_time sk < tar <= last_time (pp_depth pp) ->
  exists sk', py_update pp (py_view sk) tar seed = Some (py_view sk')
    /\ (update m pp tar seed sk = (Ok tt, sk') \/ update m pp tar seed sk = (Panic P_PRNG, sk)).
Proof. exact py_update_agrees. Qed.
Print Assumptions C47_sk_update.

Theorem C47_sign_present : forall (E : env) (L : env_laws E) m (pp : pubparam E) pk sk tar msg,
  pp_ok pp -> py_params pp -> reachable m pp pk sk ->
  match fst (sign_present m tar pp msg sk), py_sign_present pp (py_view sk) tar msg with
  | Ok s, Some (t, s1, s2) => sig_time s = t /\ sig_1 s = s1 /\ sig_2 s = s2
  | Err _, None => True
  | _, _ => False
  end.
Proof. exact py_sign_agrees. Qed.
Print Assumptions C47_sign_present.

Example C47_example_steps :
  reachable Debug tpp4 tpk4 tsk7
  /\ py_key_gen tpp4 tseed = Some (pk_pk tpk4, py_view tsk4)
  /\ sec_time tsk7 < 12 <= last_time (pp_depth tpp4)
  /\ py_update tpp4 (py_view tsk7) 12 (str "b") = Some (py_view tsk12) /\ map sk_t (sec_ssk tsk12) = [12; 13]
  /\ py_sign_present tpp4 (py_view tsk7) 7 (str "hello") = Some (7, sig_1 tsig7, sig_2 tsig7)
  /\ py_sign_present tpp4 (py_view tsk7) 8 (str "hello") = None.
Proof.
  split; [exact tsk7_reachable|]. split; [vm_cast_no_check (eq_refl (Some (pk_pk tpk4, py_view tsk4)))|].
  split; [split; vm_compute; [reflexivity|intros H; discriminate H]|].
  split; [vm_cast_no_check (eq_refl (Some (py_view tsk12)))|]. split; [reflexivity|].
  split; [vm_cast_no_check (eq_refl (Some (7, sig_1 tsig7, sig_2 tsig7)))|].
  vm_cast_no_check (@eq_refl (option (N * zn r2 * zn r1)) None).
Qed.

(** They differ on arguments out of range: sk_update takes a time stamp of the past (the
    signatures of that key do not verify) and one after the last (that key cannot sign),
    and key_gen a short seed; Rust refuses. *)
Theorem C47_past_target_refuted : exists (E : env) (pp : pubparam E) pk sk tar k t s1 s2,
  env_laws E /\ pp_ok pp /\ py_params pp /\ reachable Debug pp pk sk /\ tar < sec_time sk
  /\ update Debug pp tar [] sk = (Err E_TIME_STAMP, sk)
  /\ py_update pp (py_view sk) tar [] = Some k
  /\ py_sign_present pp k tar (str "hello") = Some (t, s1, s2)
  /\ verify Debug (Signature 0 t s1 s2) pk pp (str "hello") = Ok false.
Proof. exact py_accepts_past. Qed.
Print Assumptions C47_past_target_refuted.

Theorem C47_late_target_refuted : exists (E : env) (pp : pubparam E) pk sk tar k,
  env_laws E /\ pp_ok pp /\ py_params pp /\ reachable Debug pp pk sk /\ last_time (pp_depth pp) < tar
  /\ update Debug pp tar [] sk = (Err E_TIME_STAMP, sk)
  /\ py_update pp (py_view sk) tar [] = Some k
  /\ py_sign_present pp k tar (str "hello") = None.
Proof. exact py_accepts_after_last. Qed.
Print Assumptions C47_late_target_refuted.

Theorem C47_short_seed_refuted : exists (E : env) (pp : pubparam E) pk sk,
  env_laws E /\ pp_ok pp /\ py_params pp /\ key_gen [] pp = Err E_SEED_TOO_SHORT /\ py_key_gen pp [] = Some (pk, sk).
Proof. exact py_accepts_short_seed. Qed.
Print Assumptions C47_short_seed_refuted.

(** time_to_vec on every argument: past the last time stamp it returns a vector too. *)
Theorem C47_time_to_vec : forall d t,
  py_time_to_vec 0 d = None
  /\ (forall v, node_at d t v -> py_time_to_vec t d = Some v)
  /\ (2^(N.of_nat d) <= t -> py_time_to_vec t d = Some (repeat 2 d ++ repeat 1 (N.to_nat (t - 2^(N.of_nat d))))).
Proof. exact py_time_to_vec_all. Qed.
Print Assumptions C47_time_to_vec.

Example C47_example_time_to_vec :
  py_time_to_vec 6 3 = Some [2; 1] /\ node_at 3 6 [2; 1]
  /\ py_time_to_vec 8 3 = Some [2; 2; 2] /\ py_time_to_vec 10 3 = Some [2; 2; 2; 1; 1]
  /\ time_to_vec Debug 10 3 = Err E_TIME_STAMP.
Proof. split; [reflexivity|]. split; [split; [discriminate|reflexivity]|]. split; [reflexivity|]. split; reflexivity. Qed.
