(** Properties C48-C51 and C53: what one update does, algebra and failures of sub keys
    (src/secret_key.rs update, src/subkeys.rs).
    Specification vocabulary: SpecKey.v ([honest_ssk], [node_val], [shape_ssk],
    [shape_sk]), SpecUpdate.v ([added], [draws], [spec_reseed]). *)
From Coq Require Import String.
From Verif Require Import Base Env Time Hkdf SpecTime Prng SpecPrng SubKey SecretKey Keys Sig IO Serdes Api
  SpecKey SpecUpdate SpecDerive KeyProps SubProps AlgProps Toy ToyRun WitProps.
Local Open Scope N_scope.

(** C48 *)
Theorem C48_prefix_rule : forall (E : env) (L : env_laws E) m m' (pp : pubparam E) pk sk t seed sk' tv gl,
  pp_ok pp -> reachable m pp pk sk -> update m' pp t seed sk = (Ok tt, sk') ->
  tv_init m' t (pp_depth pp) = Ok tv -> gamma_list m' tv (pp_depth pp) = Ok gl ->
  exists gone del kept new tvd,
    sec_ssk sk = gone ++ del :: kept /\ sec_ssk sk' = new ++ kept
    /\ tv_init m' (sk_t del) (pp_depth pp) = Ok tvd
    /\ map sk_t new = map tv_time (filter (fun e => tv_is_prefix tvd e || (tv_time e =? sk_t del)) gl)
    /\ map sk_t kept = map tv_time (filter (fun e => negb (tv_is_prefix tvd e || (tv_time e =? sk_t del))) gl).
Proof. exact update_prefix_rule. Qed.
Print Assumptions C48_prefix_rule.

Example C48_example : tv_init Debug 12 4 = Ok (TimeVec 12 [2; 1; 2])
  /\ gamma_list Debug (TimeVec 12 [2; 1; 2]) 4 = Ok [TimeVec 12 [2; 1; 2]; TimeVec 13 [2; 2]]
  /\ map sk_t (sec_ssk tsk7) = [7; 8; 9] /\ update Debug tpp4 12 (str "b") tsk7 = (Ok tt, tsk12).
Proof. split; [reflexivity|]. split; [reflexivity|]. split; [reflexivity|exact tsk12_ok]. Qed.

(** C49 *)
Theorem C49_randomness : forall (E : env) (L : env_laws E) m m' (pp : pubparam E) pk sk t seed sk',
  pp_ok pp -> reachable m pp pk sk -> update m' pp t seed sk = (Ok tt, sk') ->
  exists x td vd r nodes kept,
    pk_pk pk = g2_mul x (pp_g2 pp)
    /\ In (honest_ssk pp x td vd r) (sec_ssk sk)
    /\ sec_ssk sk'
       = map (fun ie => honest_ssk pp x (tv_time (snd ie)) (tv_vec (snd ie))
                          (r + added (sha512 E) (spec_reseed sk seed) (fst ie)))
             (combine (seq 0 (length nodes)) nodes) ++ kept
    /\ (1 <= length nodes)%nat /\ (length nodes + length kept <= pp_depth pp)%nat
    /\ Forall (fun tv => node_at (pp_depth pp) (tv_time tv) (tv_vec tv)) nodes
    /\ sec_prng sk' = draws (sha512 E) (length nodes - 1) (spec_reseed sk seed).
Proof. exact update_randomness. Qed.
Print Assumptions C49_randomness.

Theorem C49_max_draws : forall (E : env) (L : env_laws E) m (pp : pubparam E) seed pk sk pop seed' sk',
  pp_ok pp -> (2 <= pp_depth pp)%nat -> key_gen seed pp = Ok (pk, sk, pop) ->
  update m pp (N.of_nat (pp_depth pp)) seed' sk = (Ok tt, sk') ->
  length (sec_ssk sk') = pp_depth pp
  /\ sec_prng sk' = draws (sha512 E) (pp_depth pp - 1) (spec_reseed sk seed').
Proof. exact update_max_draws. Qed.
Print Assumptions C49_max_draws.

(** "Sampling zero or one random field element" (comment in update) is false. *)
Theorem C49_zero_or_one_refuted : exists (E : env) (pp : pubparam E) seed pk sk pop t seed' sk',
  env_laws E /\ pp_ok pp /\ key_gen seed pp = Ok (pk, sk, pop)
  /\ update Debug pp t seed' sk = (Ok tt, sk')
  /\ sec_prng sk' = draws (sha512 E) 3 (spec_reseed sk seed')
  /\ sec_prng sk' <> draws (sha512 E) 0 (spec_reseed sk seed')
  /\ sec_prng sk' <> draws (sha512 E) 1 (spec_reseed sk seed').
Proof. exact one_draw_false. Qed.
Print Assumptions C49_zero_or_one_refuted.

(** spec.md appends the time to the info string of a draw; the code does not. *)
Theorem C49_spec_info_refuted : exists (E : env) (pp : pubparam E) pk sk t seed' sk',
  env_laws E /\ pp_ok pp /\ reachable Debug pp pk sk
  /\ update Debug pp t seed' sk = (Ok tt, sk')
  /\ sec_prng sk' = spec_next (sha512 E) (spec_reseed sk seed') DOM_SEP_SK_UPDATE
  /\ sec_prng sk' <> spec_next (sha512 E) (spec_reseed sk seed') (DOM_SEP_SK_UPDATE ++ time_bytes (sec_time sk)).
Proof. exact spec_md_info_false. Qed.
Print Assumptions C49_spec_info_refuted.

Example C49_example : update Debug tpp4 4 (str "a") tsk4 = (Ok tt, tsk4l) /\ length (sec_ssk tsk4l) = 4%nat.
Proof. split; [exact tsk4l_ok|reflexivity]. Qed.

(** C50 *)
Theorem C50_subkey_form : forall (E : env) (L : env_laws E) m (pp : pubparam E) pk sk,
  pp_ok pp -> reachable m pp pk sk ->
  exists x, x < fr_modulus /\ pk_pk pk = g2_mul x (pp_g2 pp)
  /\ forall s, In s (sec_ssk sk) ->
     exists v r, node_at (pp_depth pp) (sk_t s) v
       /\ sk_g2r s = g2_mul r (pp_g2 pp)
       /\ sk_hpoly s = g1_add (g1_mul x (pp_h pp)) (g1_mul r (node_val pp v))
       /\ length (sk_hvec s) = (pp_depth pp - length v)%nat
       /\ forall i, (i < pp_depth pp - length v)%nat ->
            nth i (sk_hvec s) g1_zero = g1_mul r (nth (length v + 1 + i) (pp_hlist pp) g1_zero).
Proof. exact reachable_subkeys_honest. Qed.
Print Assumptions C50_subkey_form.

Theorem C50_delegate_form : forall (E : env) (L : env_laws E) m (pp : pubparam E) x t v r t' w,
  pp_ok pp -> node_at (pp_depth pp) t v -> node_at (pp_depth pp) t' (v ++ w) -> w <> [] ->
  delegate m t' (pp_depth pp) (honest_ssk pp x t v r) = (Ok tt, honest_ssk pp x t' (v ++ w) r).
Proof. exact delegate_in_honest_form. Qed.
Print Assumptions C50_delegate_form.

Theorem C50_randomization_form : forall (E : env) (L : env_laws E) m (pp : pubparam E) x t v r k,
  pp_ok pp -> node_at (pp_depth pp) t v ->
  randomization m pp k (honest_ssk pp x t v r) = (Ok tt, honest_ssk pp x t v (r + k)).
Proof. exact randomize_in_honest_form. Qed.
Print Assumptions C50_randomization_form.

Theorem C50_delegate_transitive : forall (E : env) (L : env_laws E) m (pp : pubparam E) s t u,
  pp_ok pp -> shape_ssk pp s ->
  strictly_below (pp_depth pp) (sk_t s) t -> strictly_below (pp_depth pp) t u ->
  exists s1 s2, delegate m t (pp_depth pp) s = (Ok tt, s1)
    /\ delegate m u (pp_depth pp) s1 = (Ok tt, s2) /\ delegate m u (pp_depth pp) s = (Ok tt, s2).
Proof. exact delegate_transitive. Qed.
Print Assumptions C50_delegate_transitive.

Theorem C50_delegate_randomization_commute : forall (E : env) (L : env_laws E) m (pp : pubparam E) s t k,
  pp_ok pp -> shape_ssk pp s -> strictly_below (pp_depth pp) (sk_t s) t ->
  exists s1 s2 s3, delegate m t (pp_depth pp) s = (Ok tt, s1) /\ randomization m pp k s1 = (Ok tt, s2)
    /\ randomization m pp k s = (Ok tt, s3) /\ delegate m t (pp_depth pp) s3 = (Ok tt, s2).
Proof. exact delegate_randomize_commute. Qed.
Print Assumptions C50_delegate_randomization_commute.

Theorem C50_randomization_additive : forall (E : env) (L : env_laws E) m (pp : pubparam E) s j k,
  pp_ok pp -> shape_ssk pp s ->
  exists s1 s2, randomization m pp j s = (Ok tt, s1) /\ randomization m pp k s1 = (Ok tt, s2)
    /\ randomization m pp (j + k) s = (Ok tt, s2).
Proof. exact randomize_additive. Qed.
Print Assumptions C50_randomization_additive.

(** A sub key that is not honest meets the hypotheses of the last three. *)
Example C50_example : shape_ssk tpp4 (tssk 2 3) /\ strictly_below 4 2 6 /\ strictly_below 4 6 7.
Proof.
  split; [|split].
  - exists [1]. split; [|reflexivity]. apply (TimeFacts.tv_init_node Debug 4 2 (TimeVec 2 [1])); [lia|reflexivity].
  - apply (TimeFacts.is_prefix_spec 4 2 [1] 6 [1; 2]); [| |reflexivity];
      [apply (TimeFacts.tv_init_node Debug 4 2 (TimeVec 2 [1])); [lia|reflexivity]
      |apply (TimeFacts.tv_init_node Debug 4 6 (TimeVec 6 [1; 2])); [lia|reflexivity]].
  - apply (TimeFacts.is_prefix_spec 4 6 [1; 2] 7 [1; 2; 1]); [| |reflexivity];
      [apply (TimeFacts.tv_init_node Debug 4 6 (TimeVec 6 [1; 2])); [lia|reflexivity]
      |apply (TimeFacts.tv_init_node Debug 4 7 (TimeVec 7 [1; 2; 1])); [lia|reflexivity]].
Qed.

(** C51 *)
Theorem C51_delegate_err_unchanged : forall (E : env) m d (s : subkey E) t e s',
  delegate m t d s = (Err e, s') -> s' = s.
Proof. exact delegate_failure_atomic. Qed.
Print Assumptions C51_delegate_err_unchanged.

Theorem C51_randomization_err_state : forall (E : env) m (pp : pubparam E) (s : subkey E) k,
  (1 <= pp_depth pp < 64)%nat -> ~ (1 <= sk_t s <= last_time (pp_depth pp)) ->
  exists e, randomization m pp k s
  = (Err e, SubKey (sk_t s) (g2_add (sk_g2r s) (g2_mul k (pp_g2 pp))) (sk_hpoly s) (sk_hvec s)).
Proof. exact randomization_failure. Qed.
Print Assumptions C51_randomization_err_state.

Theorem C51_randomization_atomic_refuted : exists (E : env) (pp : pubparam E) (s : subkey E) k e s',
  env_laws E /\ pp_ok pp /\ randomization Debug pp k s = (Err e, s') /\ s' <> s.
Proof. exact randomization_not_atomic. Qed.
Print Assumptions C51_randomization_atomic_refuted.

Theorem C51_delegate_panic_unchanged_refuted : exists (E : env) (pp : pubparam E) (s : subkey E) t s',
  env_laws E /\ pp_ok pp /\ delegate Debug t (pp_depth pp) s = (Panic P_INDEX, s') /\ s' <> s.
Proof. exact delegate_panic_not_atomic. Qed.
Print Assumptions C51_delegate_panic_unchanged_refuted.

(** C53 *)
Theorem C53_shaped_key_no_panic : forall (E : env) (L : env_laws E) m (pp : pubparam E) sk t seed,
  pp_ok pp -> shape_sk pp sk ->
  match fst (update m pp t seed sk) with
  | Ok _ => sec_time sk < t <= last_time (pp_depth pp) /\ shape_sk pp (snd (update m pp t seed sk))
            /\ sec_time (snd (update m pp t seed sk)) = t
  | Err e => e = E_TIME_STAMP /\ ~ (sec_time sk < t <= last_time (pp_depth pp)) /\ snd (update m pp t seed sk) = sk
  | Panic p => p = P_PRNG /\ snd (update m pp t seed sk) = sk
  end.
Proof. exact update_shape_no_panic. Qed.
Print Assumptions C53_shaped_key_no_panic.

Theorem C53_malformed_key_panics_refuted : exists (E : env) (pp : pubparam E) blob sk,
  env_laws E /\ pp_ok pp /\ from_slice (sk_deserialize true) blob = Ok sk
  /\ (forall m seed, update m pp 2 seed sk = (Panic P_INDEX, sk)).
Proof. exact malformed_update_panics. Qed.
Print Assumptions C53_malformed_key_panics_refuted.

Example C53_example : exists sk, shape_sk tpp4 sk /\ sec_prng sk = [] /\ sec_time sk = 9.
Proof.
  exists (@SecKey toy 0 9 [tssk 9 3] []). split; [|split; reflexivity]. constructor.
  - reflexivity.
  - cbn. lia.
  - cbn [map sec_ssk tssk sk_t].
    eapply tile_cons; [apply (TimeFacts.tv_init_node Debug 4 9 (TimeVec 9 [2])); [lia|reflexivity]|].
    apply tile_end.
  - constructor; [|constructor]. exists [2]. split; [|reflexivity].
    apply (TimeFacts.tv_init_node Debug 4 9 (TimeVec 9 [2])); [lia|reflexivity].
Qed.
