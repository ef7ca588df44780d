(** Property C91: the parameters of pixel-python/param.py (Param.v).  Specification
    vocabulary: SpecParam.v (parameter generation of spec.md), SpecKey.v ([pp_ok]),
    SpecColl.v ([breaks_at]). *)
From Coq Require Import String.
From Verif Require Import Base Env SubKey SecretKey Keys Sig Api Param SpecKey SpecSer SpecColl SpecParam ParamProps Toy ToyRun.
Local Open Scope N_scope.

(** C91 *)
Theorem C91_param_is_spec : forall (E : env) (L : env_laws E) (h2c : bytes -> bytes -> G1 E) seed cs d,
  (d < 255)%nat ->
  exists buf, py_param h2c seed cs d = Some (spec_param h2c seed cs d, buf)
  /\ buf = [cs; N.of_nat d] ++ g2_enc false (@g2_one E) ++ g1_enc false (pp_h (spec_param h2c seed cs d))
           ++ concat (map (g1_enc false) (pp_hlist (spec_param h2c seed cs d)))
  /\ length buf = (2 + 96 + 192 * (d + 2))%nat.
Proof. exact param_is_spec. Qed.
Print Assumptions C91_param_is_spec.

Theorem C91_param_ok : forall (E : env) (L : env_laws E) (h2c : bytes -> bytes -> G1 E) seed cs d,
  (forall key c, g1_insub (h2c key c) = true) -> (1 <= d < 64)%nat ->
  pp_ok (spec_param h2c seed cs d) /\ pp_g2 (spec_param h2c seed cs d) = g2_one
  /\ pp_depth (spec_param h2c seed cs d) = d /\ pp_cs (spec_param h2c seed cs d) = cs
  /\ length (pp_hlist (spec_param h2c seed cs d)) = (d + 1)%nat.
Proof. exact spec_param_ok. Qed.
Print Assumptions C91_param_ok.

Theorem C91_file_determines : forall (E : env) (L : env_laws E) (h2c : bytes -> bytes -> G1 E) seed cs d pp seed' cs' d' pp' buf,
  (forall key c, g1_insub (h2c key c) = true) -> (1 <= d < 64)%nat -> (1 <= d' < 64)%nat ->
  py_param h2c seed cs d = Some (pp, buf) -> py_param h2c seed' cs' d' = Some (pp', buf) -> pp = pp'.
Proof. exact param_file_determines. Qed.
Print Assumptions C91_file_determines.

Theorem C91_seed_is_iv : PARAM_SEED = flat_map be8 SHA512_IV /\ (32 <= length PARAM_SEED)%nat.
Proof. exact param_seed_is_iv. Qed.
Print Assumptions C91_seed_is_iv.

Theorem C91_infos_distinct : forall d,
  NoDup (str "H2G_h" :: map (fun i => str "H2G_h" ++ [N.of_nat i]) (seq 0 (d + 1))).
Proof. exact param_infos_distinct. Qed.
Print Assumptions C91_infos_distinct.

Theorem C91_default_end_to_end : forall (E : env) (L : env_laws E) m (h2c : bytes -> bytes -> G1 E) kseed,
  (forall key c, g1_insub (h2c key c) = true) -> (32 <= length kseed)%nat ->
  exists pp buf pk sk0 pop, py_default_param h2c = Some (pp, buf) /\ key_gen kseed pp = Ok (pk, sk0, pop)
  /\ pk_validate pk pop = true
  /\ forall l sk, snd (run m pp l sk0) = sk ->
     sk_validate m sk pk pp = Ok true /\ 1 <= sec_time sk < 2^32
     /\ (forall t msg seed, sec_time sk <= t < 2^32 ->
         (exists s sk', sign m t pp msg seed sk = (Ok s, sk') /\ sig_time s = t /\ verify m s pk pp msg = Ok true)
         \/ (sign m t pp msg seed sk = (Panic P_PRNG, sk) /\ breaks_at m pp kseed l seed))
     /\ (forall t msg seed, t < sec_time sk \/ 2^32 <= t -> sign m t pp msg seed sk = (Err E_TIME_STAMP, sk)).
Proof. exact default_end_to_end. Qed.
Print Assumptions C91_default_end_to_end.

(** The hash to the group of the toy environment always gives points of the subgroup; depth 2. *)
Example C91_example :
  (forall key c, @g1_insub toy (toy_hash key c) = true)
  /\ exists pp buf, py_param (E := toy) toy_hash PARAM_SEED 1 2 = Some (pp, buf)
     /\ pp_cs pp = 1 /\ length (pp_hlist pp) = 3%nat /\ length buf = 866%nat /\ firstn 2 buf = [1; 2].
Proof.
  split; [exact toy_hash_sub|]. destruct (C91_param_is_spec toy toy_laws toy_hash PARAM_SEED 1 2 ltac:(lia)) as (buf & H & Hb & Hl).
  exists (spec_param (E := toy) toy_hash PARAM_SEED 1 2), buf. split; [exact H|]. split; [reflexivity|]. split; [reflexivity|].
  split; [exact Hl|]. rewrite Hb. reflexivity.
Qed.
