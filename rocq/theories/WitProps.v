(** Witnesses, computed in the toy environment, behind the [_refuted] theorems. *)
From Coq Require Import String.
From Verif Require Import Base Env Time SpecTime TimeFacts Hkdf Prng SpecPrng PrngFacts SubKey SecretKey Keys Sig IO Serdes Api Ffi
  SpecKey SpecUpdate SpecSer Sha512 Toy ToyRun AlgProps.
Local Open Scope N_scope.

(** * C07 *)
Definition tpp_g2 : pubparam toy := Eval vm_compute in
  @PubParam toy 4 0 (@g2_add toy toy_one toy_one) (pp_h tpp4) (pp_hlist tpp4).
Definition tkg_g2 : pubkey toy * seckey toy * proof toy := Eval vm_compute in get tdflt (key_gen tseed tpp_g2).
Lemma pop_other_generator : exists (E : env) (pp : pubparam E) seed pk sk pop,
  env_laws E /\ pp_ok pp /\ key_gen seed pp = Ok (pk, sk, pop) /\ pk_validate pk pop = false.
Proof.
  exists toy, tpp_g2, tseed, (fst3 tkg_g2), (snd3 tkg_g2), (snd tkg_g2). split; [exact toy_laws|]. split.
  - destruct tpp4_ok as [H1 H2 H3 H4 _]. constructor; [exact H1|exact H2|exact H3|exact H4|].
    vm_cast_no_check (eq_refl true).
  - split; [|vm_cast_no_check (eq_refl false)].
    vm_cast_no_check (eq_refl (Ok (fst3 tkg_g2, snd3 tkg_g2, snd tkg_g2))).
Qed.

(** * C49 *)
Lemma one_draw_false : exists (E : env) (pp : pubparam E) seed pk sk pop t seed' sk',
  env_laws E /\ pp_ok pp /\ key_gen seed pp = Ok (pk, sk, pop)
  /\ update Debug pp t seed' sk = (Ok tt, sk')
  /\ sec_prng sk' = draws (sha512 E) 3 (spec_reseed sk seed')
  /\ sec_prng sk' <> draws (sha512 E) 0 (spec_reseed sk seed')
  /\ sec_prng sk' <> draws (sha512 E) 1 (spec_reseed sk seed').
Proof.
  exists toy, tpp4, tseed, tpk4, tsk4, tpop4, 4, (str "a"), tsk4l. split; [exact toy_laws|]. split; [exact tpp4_ok|].
  split; [exact tkeygen|]. split; [exact tsk4l_ok|].
  destruct (update_max_draws toy toy_laws Debug tpp4 tseed tpk4 tsk4 tpop4 (str "a") tsk4l tpp4_ok ltac:(cbn; lia) tkeygen tsk4l_ok) as [_ H].
  split; [exact H|].
  assert (Hb : bytes_eqb (sec_prng tsk4l) (draws qhash 0 (spec_reseed tsk4 (str "a"))) = false
            /\ bytes_eqb (sec_prng tsk4l) (draws qhash 1 (spec_reseed tsk4 (str "a"))) = false)
    by (split; vm_cast_no_check (eq_refl false)).
  destruct Hb as [H0 H1]. split; intros He.
  - change (sha512 toy) with qhash in He. rewrite <- He in H0. rewrite (proj2 (bytes_eqb_eq _ _) eq_refl) in H0. discriminate H0.
  - change (sha512 toy) with qhash in He. rewrite <- He in H1. rewrite (proj2 (bytes_eqb_eq _ _) eq_refl) in H1. discriminate H1.
Qed.

Lemma spec_md_info_false : exists (E : env) (pp : pubparam E) pk sk t seed' sk',
  env_laws E /\ pp_ok pp /\ reachable Debug pp pk sk
  /\ update Debug pp t seed' sk = (Ok tt, sk')
  /\ sec_prng sk' = spec_next (sha512 E) (spec_reseed sk seed') DOM_SEP_SK_UPDATE
  /\ sec_prng sk' <> spec_next (sha512 E) (spec_reseed sk seed') (DOM_SEP_SK_UPDATE ++ time_bytes (sec_time sk)).
Proof.
  exists toy, tpp4, tpk4, tsk7, 12, (str "b"), tsk12. split; [exact toy_laws|]. split; [exact tpp4_ok|].
  split; [exact tsk7_reachable|]. split; [exact tsk12_ok|].
  change (sha512 toy) with qhash.
  assert (H0 : bytes_eqb (sec_prng tsk12) (spec_next qhash (spec_reseed tsk7 (str "b")) DOM_SEP_SK_UPDATE) = true)
    by vm_cast_no_check (eq_refl true).
  assert (H1 : bytes_eqb (sec_prng tsk12) (spec_next qhash (spec_reseed tsk7 (str "b"))
      (DOM_SEP_SK_UPDATE ++ time_bytes (sec_time tsk7))) = false) by vm_cast_no_check (eq_refl false).
  split; [apply bytes_eqb_eq; exact H0|]. intros He. rewrite <- He in H1.
  rewrite (proj2 (bytes_eqb_eq _ _) eq_refl) in H1. discriminate H1.
Qed.

(** * C51 *)
Lemma randomization_not_atomic : exists (E : env) (pp : pubparam E) (s : subkey E) k e s',
  env_laws E /\ pp_ok pp /\ randomization Debug pp k s = (Err e, s') /\ s' <> s.
Proof.
  exists toy, tpp4, (tssk 99 2), 5, E_TIME_STAMP,
    (@SubKey toy 99 (@g2_add toy (mk r2 0) (@g2_mul toy 5 (pp_g2 tpp4))) (mk r1 0) (repeat (mk r1 0) 2)).
  split; [exact toy_laws|]. split; [exact tpp4_ok|]. split; [reflexivity|].
  intros H. apply (f_equal (@sk_g2r toy)) in H. cbn [sk_g2r tssk] in H.
  apply (l2_eqb toy toy_laws) in H. revert H.
  assert (Hb : @g2_eqb toy (@g2_add toy (mk r2 0) (@g2_mul toy 5 (pp_g2 tpp4))) (mk r2 0) = false)
    by vm_cast_no_check (eq_refl false).
  rewrite Hb. intros H; discriminate H.
Qed.
Lemma delegate_panic_not_atomic : exists (E : env) (pp : pubparam E) (s : subkey E) t s',
  env_laws E /\ pp_ok pp /\ delegate Debug t (pp_depth pp) s = (Panic P_INDEX, s') /\ s' <> s.
Proof.
  exists toy, tpp4, (@SubKey toy 1 (mk r2 0) (mk r1 0) [pp_h tpp4]), 3,
    (@SubKey toy 1 (mk r2 0) (@g1_add toy (mk r1 0) (pp_h tpp4)) [pp_h tpp4]).
  split; [exact toy_laws|]. split; [exact tpp4_ok|]. split; [reflexivity|].
  intros H. apply (f_equal (@sk_hpoly toy)) in H. cbn [sk_hpoly] in H.
  apply (l1_eqb toy toy_laws) in H. revert H.
  assert (Hb : @g1_eqb toy (@g1_add toy (mk r1 0) (pp_h tpp4)) (mk r1 0) = false) by vm_cast_no_check (eq_refl false).
  rewrite Hb. intros H; discriminate H.
Qed.

(** * C53 *)
Definition tsk_bad : seckey toy := @SecKey toy 0 1 [tssk 1 0] (repeat 0 64).
Definition tsk_bad_blob : bytes := Eval vm_compute in sk_blob true tsk_bad.
Lemma malformed_update_panics : exists (E : env) (pp : pubparam E) blob sk,
  env_laws E /\ pp_ok pp /\ from_slice (sk_deserialize true) blob = Ok sk
  /\ (forall m seed, update m pp 2 seed sk = (Panic P_INDEX, sk)).
Proof.
  exists toy, tpp4, tsk_bad_blob, tsk_bad.
  split; [exact toy_laws|]. split; [exact tpp4_ok|]. split; [vm_cast_no_check (eq_refl (Ok tsk_bad))|].
  intros m seed. destruct m; reflexivity.
Qed.
