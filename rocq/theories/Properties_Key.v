(** Properties C06-C15: key generation and key update (src/key_pair.rs,
    src/public_key.rs, src/secret_key.rs, src/subkeys.rs).
    Specification vocabulary: SpecTime.v ([tiling], [below], [last_time]), SpecKey.v
    ([pp_ok], [honest_ssk]), SpecUpdate.v ([draws], [spec_reseed]), SpecDerive.v
    ([derivable], [spec_size]); Api.v ([step], [run], [reachable]).
    The examples use the concrete instance of Toy.v / ToyRun.v ([toy_laws]: it satisfies
    all the laws). *)
From Coq Require Import String.
From Verif Require Import Base Env Time Hkdf SpecTime Prng SpecPrng SubKey SecretKey Keys Sig IO Serdes Api
  SpecKey SpecUpdate SpecDerive KeyProps SubProps AlgProps Toy ToyRun WitProps.
Local Open Scope N_scope.

(** C06 *)
Theorem C06_keygen_outcomes : forall (E : env) (L : env_laws E) (pp : pubparam E) seed,
  pp_hlist pp <> [] ->
  (is_ok (key_gen seed pp) = true <-> (32 <= length seed)%nat /\ (pp_cs pp = 0 \/ pp_cs pp = 1))
  /\ ((length seed < 32)%nat -> key_gen seed pp = Err E_SEED_TOO_SHORT)
  /\ ((32 <= length seed)%nat -> pp_cs pp <> 0 -> pp_cs pp <> 1 -> key_gen seed pp = Err E_CIPHERSUITE).
Proof. exact keygen_outcomes. Qed.
Print Assumptions C06_keygen_outcomes.

Theorem C06_keygen_fields : forall (E : env) (L : env_laws E) (pp : pubparam E) seed pk sk pop,
  key_gen seed pp = Ok (pk, sk, pop) ->
  sec_time sk = 1 /\ map sk_t (sec_ssk sk) = [1]
  /\ sec_cs sk = pp_cs pp /\ pk_cs pk = pp_cs pp /\ pop_cs pop = pp_cs pp.
Proof. exact keygen_fields. Qed.
Print Assumptions C06_keygen_fields.

Example C06_example :
  key_gen tseed tpp4 = Ok (tpk4, tsk4, tpop4)
  /\ key_gen (firstn 31 tseed) tpp4 = Err E_SEED_TOO_SHORT
  /\ key_gen tseed (@PubParam toy 4 2 (pp_g2 tpp4) (pp_h tpp4) (pp_hlist tpp4)) = Err E_CIPHERSUITE.
Proof. split; [exact tkeygen|]. split; reflexivity. Qed.

(** C07.  The proof of possession is a BLS signature under the standard generator, so
    it needs the generator in the parameters to be the standard one; without that
    hypothesis it fails. *)
Theorem C07_secret_key_valid : forall (E : env) (L : env_laws E) m (pp : pubparam E) seed pk sk pop,
  pp_ok pp -> key_gen seed pp = Ok (pk, sk, pop) -> sk_validate m sk pk pp = Ok true.
Proof. exact keygen_valid. Qed.
Print Assumptions C07_secret_key_valid.

Theorem C07_pop_valid : forall (E : env) (L : env_laws E) (pp : pubparam E) seed pk sk pop,
  pp_ok pp -> pp_g2 pp = g2_one -> key_gen seed pp = Ok (pk, sk, pop) -> pk_validate pk pop = true.
Proof. exact keygen_pop. Qed.
Print Assumptions C07_pop_valid.

Theorem C07_pop_other_generator_refuted : exists (E : env) (pp : pubparam E) seed pk sk pop,
  env_laws E /\ pp_ok pp /\ key_gen seed pp = Ok (pk, sk, pop) /\ pk_validate pk pop = false.
Proof. exact pop_other_generator. Qed.
Print Assumptions C07_pop_other_generator_refuted.

(** What the check of a proof of possession compares: the ciphersuites, and a BLS
    signature on the public key itself. *)
Theorem C07_pop_accepted_iff : forall (E : env) (pk : pubkey E) (pop : proof E),
  pk_validate pk pop = true <->
  (pk_cs pk = 0 \/ pk_cs pk = 1) /\ pop_cs pop = pk_cs pk
  /\ bls_verify (pk_pk pk) (pop_pop pop) (str "Pixel public key POP" ++ g2_enc true (pk_pk pk)) [pk_cs pk] = true.
Proof. exact pop_accepted_iff. Qed.
Print Assumptions C07_pop_accepted_iff.

Theorem C07_pop_value : forall (E : env) (L : env_laws E) (pp : pubparam E) seed pk sk pop,
  pp_ok pp -> key_gen seed pp = Ok (pk, sk, pop) ->
  let prk := rfc_hmac (sha512 E) (str "Pixel master key" ++ [pp_cs pp]) seed in
  exists x, pk_pk pk = g2_mul x (pp_g2 pp)
    /\ x = os2ip (rfc_hmac (sha512 E) prk (str "key initialization" ++ [1])) mod fr_modulus
    /\ pop_pop pop = bls_sign x (str "Pixel public key POP" ++ g2_enc true (pk_pk pk)) [pp_cs pp].
Proof. exact keygen_pop_value. Qed.
Print Assumptions C07_pop_value.

Example C07_example :
  sk_validate Debug tsk4 tpk4 tpp4 = Ok true /\ pk_validate tpk4 tpop4 = true /\ pp_g2 tpp4 = g2_one.
Proof.
  split; [exact (C07_secret_key_valid toy toy_laws Debug tpp4 tseed tpk4 tsk4 tpop4 tpp4_ok tkeygen)|].
  split; [|reflexivity].
  exact (C07_pop_valid toy toy_laws tpp4 tseed tpk4 tsk4 tpop4 tpp4_ok eq_refl tkeygen).
Qed.
(** ... while validation does reject another public key. *)
Example C07_example_wrong_pk :
  sk_validate Debug tsk4 (@PubKey toy 0 (g2_add (pk_pk tpk4) (pk_pk tpk4))) tpp4 = Ok false.
Proof. vm_cast_no_check (eq_refl (Ok false)). Qed.

(** ... and a proof of possession with another ciphersuite, for another public key, or
    another group element. *)
Example C07_example_wrong_pop :
  bls_verify (pk_pk tpk4) (pop_pop tpop4) (str "Pixel public key POP" ++ @g2_enc toy true (pk_pk tpk4)) [0] = true
  /\ pk_validate tpk4 (@Pop toy 1 (pop_pop tpop4)) = false
  /\ pk_validate (@PubKey toy 1 (pk_pk tpk4)) tpop4 = false
  /\ pk_validate (@PubKey toy 2 (pk_pk tpk4)) (@Pop toy 2 (pop_pop tpop4)) = false
  /\ pk_validate (@PubKey toy 0 (g2_add (pk_pk tpk4) (pk_pk tpk4))) tpop4 = false
  /\ pk_validate tpk4 (@Pop toy 0 (g1_add (pop_pop tpop4) (pop_pop tpop4))) = false.
Proof.
  split; [vm_cast_no_check (eq_refl true)|]. split; [vm_cast_no_check (eq_refl false)|].
  split; [vm_cast_no_check (eq_refl false)|]. split; [vm_cast_no_check (eq_refl false)|].
  split; [vm_cast_no_check (eq_refl false)|]. vm_cast_no_check (eq_refl false).
Qed.

(** C08.  The second alternative is the assertion "prng not updated". *)
Theorem C08_update_outcomes : forall (E : env) (L : env_laws E) m m' (pp : pubparam E) pk sk t seed,
  pp_ok pp -> reachable m pp pk sk ->
  (sec_time sk < t <= last_time (pp_depth pp) ->
     (exists sk', update m' pp t seed sk = (Ok tt, sk'))
     \/ (update m' pp t seed sk = (Panic P_PRNG, sk)
         /\ exists i, (1 <= i < pp_depth pp)%nat
                      /\ draws (sha512 E) i (spec_reseed sk seed) = sec_prng sk))
  /\ (~ (sec_time sk < t <= last_time (pp_depth pp)) -> update m' pp t seed sk = (Err E_TIME_STAMP, sk)).
Proof. exact update_outcomes. Qed.
Print Assumptions C08_update_outcomes.

Theorem C08_update_ok_iff : forall (E : env) (L : env_laws E) m m' (pp : pubparam E) pk sk t seed,
  pp_ok pp -> reachable m pp pk sk ->
  (forall i, (1 <= i < pp_depth pp)%nat -> draws (sha512 E) i (spec_reseed sk seed) <> sec_prng sk) ->
  (is_ok (fst (update m' pp t seed sk)) = true <-> sec_time sk < t <= last_time (pp_depth pp)).
Proof. exact update_ok_iff. Qed.
Print Assumptions C08_update_ok_iff.

Theorem C08_wrong_ciphersuite : forall (E : env) m (pp : pubparam E) sk t seed,
  sec_cs sk <> pp_cs pp -> update m pp t seed sk = (Err E_CIPHERSUITE, sk).
Proof. exact update_wrong_cs. Qed.
Print Assumptions C08_wrong_ciphersuite.

Example C08_example :
  (forall i, (1 <= i < 4)%nat -> draws (sha512 toy) i (spec_reseed tsk7 (str "b")) <> sec_prng tsk7)
  /\ is_ok (fst (update Debug tpp4 15 (str "b") tsk7)) = true
  /\ update Debug tpp4 7 (str "b") tsk7 = (Err E_TIME_STAMP, tsk7)
  /\ update Debug tpp4 16 (str "b") tsk7 = (Err E_TIME_STAMP, tsk7).
Proof.
  assert (Hn : forall i, (1 <= i < 4)%nat -> draws (sha512 toy) i (spec_reseed tsk7 (str "b")) <> sec_prng tsk7).
  { intros i Hi.
    assert (Hb : forallb (fun i => negb (bytes_eqb (draws (sha512 toy) i (spec_reseed tsk7 (str "b"))) (sec_prng tsk7))) [1; 2; 3]%nat = true)
      by vm_cast_no_check (eq_refl true).
    rewrite forallb_forall in Hb. assert (In i [1; 2; 3]%nat) as Hin by (cbn; lia). specialize (Hb i Hin). cbv beta in Hb.
    intros He. rewrite He in Hb. rewrite (proj2 (PrngFacts.bytes_eqb_eq _ _) eq_refl) in Hb. discriminate Hb. }
  destruct (C08_update_outcomes toy toy_laws Debug Debug tpp4 tpk4 tsk7 7 (str "b") tpp4_ok tsk7_reachable) as [_ H7].
  destruct (C08_update_outcomes toy toy_laws Debug Debug tpp4 tpk4 tsk7 16 (str "b") tpp4_ok tsk7_reachable) as [_ H16].
  split; [exact Hn|]. split.
  - apply (C08_update_ok_iff toy toy_laws Debug Debug tpp4 tpk4 tsk7 15 (str "b") tpp4_ok tsk7_reachable Hn). cbn. lia.
  - split; [apply H7; cbn; lia|apply H16; cbn; lia].
Qed.

(** C09 *)
Theorem C09_updated_key_is_gamma_list : forall (E : env) (L : env_laws E) m m' (pp : pubparam E) pk sk t seed sk',
  pp_ok pp -> reachable m pp pk sk -> update m' pp t seed sk = (Ok tt, sk') ->
  sec_time sk' = t /\ sec_cs sk' = sec_cs sk
  /\ tiling (pp_depth pp) t (map sk_t (sec_ssk sk'))
  /\ exists tv gl, tv_init m' t (pp_depth pp) = Ok tv /\ gamma_list m' tv (pp_depth pp) = Ok gl
                   /\ map sk_t (sec_ssk sk') = map tv_time gl.
Proof. exact update_result_shape. Qed.
Print Assumptions C09_updated_key_is_gamma_list.

Example C09_example :
  update Debug tpp4 12 (str "b") tsk7 = (Ok tt, tsk12) /\ map sk_t (sec_ssk tsk12) = [12; 13].
Proof. split; [exact tsk12_ok|reflexivity]. Qed.

(** C10 *)
Theorem C10_history_valid : forall (E : env) (L : env_laws E) m m' (pp : pubparam E) seed pk sk pop ops,
  pp_ok pp -> key_gen seed pp = Ok (pk, sk, pop) ->
  sk_validate m' (snd (run m pp ops sk)) pk pp = Ok true.
Proof. exact history_valid. Qed.
Print Assumptions C10_history_valid.

Example C10_example : map is_ok (fst (run Debug tpp4 thist tsk4)) = [true; true; true; false; true; true]
  /\ sk_validate Release (snd (run Debug tpp4 thist tsk4)) tpk4 tpp4 = Ok true.
Proof.
  split; [rewrite trun_ok; exact thist_results|].
  exact (C10_history_valid toy toy_laws Debug Release tpp4 tseed tpk4 tsk4 tpop4 thist tpp4_ok tkeygen).
Qed.

(** C11: any key, well formed or not. *)
Theorem C11_failed_update_unchanged : forall (E : env) m (pp : pubparam E) sk t seed,
  is_ok (fst (update m pp t seed sk)) = false -> snd (update m pp t seed sk) = sk.
Proof. exact update_err_unchanged. Qed.
Print Assumptions C11_failed_update_unchanged.

Example C11_example : fst (update Debug tpp4 2 [] tsk_bad) = Panic P_INDEX /\ is_ok (fst (update Debug tpp4 3 [] tsk7)) = false.
Proof. split; reflexivity. Qed.

(** C12 *)
Theorem C12_untouched_or_later : forall (E : env) (L : env_laws E) m (pp : pubparam E) pk sk ops,
  pp_ok pp -> reachable m pp pk sk ->
  snd (run m pp ops sk) = sk \/ sec_time sk < sec_time (snd (run m pp ops sk)).
Proof. exact history_untouched_or_later. Qed.
Print Assumptions C12_untouched_or_later.

Theorem C12_time_monotone : forall (E : env) (L : env_laws E) m (pp : pubparam E) pk sk ops1 ops2,
  pp_ok pp -> reachable m pp pk sk ->
  sec_time (snd (run m pp ops1 sk)) <= sec_time (snd (run m pp (ops1 ++ ops2) sk)).
Proof. exact history_time_monotone. Qed.
Print Assumptions C12_time_monotone.

Theorem C12_failed_call_keeps_key : forall (E : env) (L : env_laws E) m (pp : pubparam E) pk sk o,
  pp_ok pp -> reachable m pp pk sk ->
  is_ok (fst (step m pp o sk)) = false -> snd (step m pp o sk) = sk.
Proof. exact failed_step_keeps_key. Qed.
Print Assumptions C12_failed_call_keeps_key.

Example C12_example : sec_time tsk4 = 1 /\ sec_time (snd (run Debug tpp4 thist tsk4)) = 7.
Proof. split; [reflexivity|]. rewrite trun_ok. reflexivity. Qed.

(** C13 *)
Theorem C13_past_not_covered : forall (E : env) (L : env_laws E) m m' (pp : pubparam E) pk sk s t,
  pp_ok pp -> reachable m pp pk sk -> In s (sec_ssk sk) -> t < sec_time sk ->
  ~ below (pp_depth pp) (sk_t s) t
  /\ exists e, delegate m' t (pp_depth pp) s = (Err e, s).
Proof. exact past_not_covered. Qed.
Print Assumptions C13_past_not_covered.

Theorem C13_derived_not_past : forall (E : env) (L : env_laws E) m m' (pp : pubparam E) pk sk s,
  pp_ok pp -> reachable m pp pk sk -> derivable m' pp (sec_ssk sk) s -> sec_time sk <= sk_t s.
Proof. exact derived_not_past. Qed.
Print Assumptions C13_derived_not_past.

(** ... and nothing of the future is lost. *)
Theorem C13_future_derivable : forall (E : env) (L : env_laws E) m m' (pp : pubparam E) pk sk t,
  pp_ok pp -> reachable m pp pk sk -> sec_time sk <= t <= last_time (pp_depth pp) ->
  exists s, derivable m' pp (sec_ssk sk) s /\ sk_t s = t.
Proof. exact future_derivable. Qed.
Print Assumptions C13_future_derivable.

Example C13_example : forall s, In s (sec_ssk tsk7) -> exists e, delegate Debug 4 4 s = (Err e, s).
Proof.
  intros s Hs.
  exact (proj2 (C13_past_not_covered toy toy_laws Debug Debug tpp4 tpk4 tsk7 s 4 tpp4_ok tsk7_reachable Hs eq_refl)).
Qed.

(** C14 *)
Theorem C14_path_independent : forall (E : env) (L : env_laws E) m m' (pp : pubparam E) pk pk' sk sk',
  pp_ok pp -> reachable m pp pk sk -> reachable m' pp pk' sk' -> sec_time sk = sec_time sk' ->
  map sk_t (sec_ssk sk) = map sk_t (sec_ssk sk')
  /\ map (fun s => length (sk_hvec s)) (sec_ssk sk) = map (fun s => length (sk_hvec s)) (sec_ssk sk')
  /\ sk_size sk = sk_size sk'.
Proof. exact path_independent_structure. Qed.
Print Assumptions C14_path_independent.

Theorem C14_size_is_estimate : forall (E : env) (L : env_laws E) m m' (pp : pubparam E) pk sk,
  pp_ok pp -> reachable m pp pk sk ->
  estimate_size m' (sec_time sk) (pp_depth pp) = Ok (sk_size sk)
  /\ sk_size sk = spec_size (map (fun s => length (sk_hvec s)) (sec_ssk sk)).
Proof. exact key_size_estimate. Qed.
Print Assumptions C14_size_is_estimate.

Example C14_example :
  sec_time tsk9a = 9 /\ sec_time tsk9b = 9
  /\ map sk_t (sec_ssk tsk9a) = map sk_t (sec_ssk tsk9b) /\ sk_size tsk9a = sk_size tsk9b
  /\ bytes_eqb (sec_prng tsk9a) (sec_prng tsk9b) = false.
Proof.
  destruct (C14_path_independent toy toy_laws Debug Debug tpp4 tpk4 tpk4 tsk9a tsk9b tpp4_ok
     (reachable_update _ _ _ _ tsk4_reachable tsk9a_ok) (reachable_update _ _ _ _ tsk7_reachable tsk9b_ok) eq_refl) as (H1 & _ & H2).
  split; [reflexivity|]. split; [reflexivity|]. split; [exact H1|]. split; [exact H2|reflexivity].
Qed.

(** C15 *)
Theorem C15_carried_over : forall (E : env) (L : env_laws E) m m' (pp : pubparam E) pk sk t seed sk',
  pp_ok pp -> reachable m pp pk sk -> update m' pp t seed sk = (Ok tt, sk') ->
  exists gone del kept new,
    sec_ssk sk = gone ++ del :: kept /\ sec_ssk sk' = new ++ kept
    /\ below (pp_depth pp) (sk_t del) t
    /\ Forall (fun s => forall u, below (pp_depth pp) (sk_t s) u -> u < t) gone
    /\ Forall (fun s => below (pp_depth pp) (sk_t del) (sk_t s)) new
    /\ (sk_t del = t -> new = [del]).
Proof. exact update_carries_over. Qed.
Print Assumptions C15_carried_over.

Example C15_example : map sk_t (sec_ssk tsk7) = [7; 8; 9] /\ update Debug tpp4 9 (str "c") tsk7 = (Ok tt, tsk9b)
  /\ sec_ssk tsk9b = skipn 2 (sec_ssk tsk7).
Proof. split; [reflexivity|]. split; [exact tsk9b_ok|reflexivity]. Qed.
