(** Properties C22-C28, C43, C44, C52 and C56: verification, aggregation, validation and
    equality (src/sig.rs, src/secret_key.rs validate, src/subkeys.rs validate,
    src/public_key.rs).
    Specification vocabulary: SpecTime.v ([node_at], [tiling], [last_time]), SpecKey.v
    ([pp_ok], [node_val], [sig_val], [honest_sig]), SpecSig.v ([ssk_equation]),
    SpecUpdate.v ([msg_scalar]). *)
From Coq Require Import String Sorting.Permutation.
From Verif Require Import Base Env Time Hkdf SpecTime Prng SpecPrng SubKey SecretKey Keys Sig IO Serdes Api
  SpecKey SpecUpdate SpecSig SigProps VerProps ValProps Toy ToyRun WitProps WitSigProps.
Local Open Scope N_scope.

(** C22 *)
Theorem C22_aggregate_verifies : forall (E : env) (L : env_laws E) m m' (pp : pubparam E) (l : list (signature E * pubkey E)) t msg,
  pp_ok pp -> l <> [] ->
  Forall (fun sp => verify m (fst sp) (snd sp) pp msg = Ok true /\ sig_time (fst sp) = t
                    /\ pk_cs (snd sp) = pp_cs pp /\ g2_insub (pk_pk (snd sp)) = true) l ->
  exists s, aggregate (map fst l) = Ok s /\ verify_aggregated m' s (map snd l) pp msg = Ok true.
Proof. exact aggregate_verifies. Qed.
Print Assumptions C22_aggregate_verifies.

(** Two signers, one of them twice. *)
Definition tagg : signature toy := Eval vm_compute in get tsig7 (aggregate [tsig7; tsig7b; tsig7]).
Example C22_example :
  Forall (fun sp => verify Debug (fst sp) (snd sp) tpp4 (str "hello") = Ok true /\ sig_time (fst sp) = 7
                    /\ pk_cs (snd sp) = pp_cs tpp4 /\ g2_insub (pk_pk (snd sp)) = true)
    [(tsig7, tpk4); (tsig7b, tpk4b); (tsig7, tpk4)].
Proof.
  assert (H1 : verify Debug tsig7 tpk4 tpp4 (str "hello") = Ok true) by vm_cast_no_check (eq_refl (Ok true)).
  assert (H2 : verify Debug tsig7b tpk4b tpp4 (str "hello") = Ok true) by vm_cast_no_check (eq_refl (Ok true)).
  repeat constructor; assumption.
Qed.

(** C23 *)
Theorem C23_aggregate_outcomes : forall (E : env) (s : signature E) l,
  (is_ok (aggregate (s :: l)) = true <-> Forall (fun e => sig_cs e = sig_cs s /\ sig_time e = sig_time s) l)
  /\ (forall e, aggregate (s :: l) = Err e ->
        (e = E_CIPHERSUITE /\ exists a, In a l /\ sig_cs a <> sig_cs s)
        \/ (e = E_TIME_STAMP /\ exists a, In a l /\ sig_time a <> sig_time s))
  /\ (forall p, aggregate (s :: l) <> Panic p).
Proof. exact aggregate_outcomes. Qed.
Print Assumptions C23_aggregate_outcomes.

Theorem C23_aggregate_fields : forall (E : env) (L : env_laws E) (l : list (signature E)) s,
  aggregate l = Ok s -> Forall (fun e => sig_cs e = sig_cs s /\ sig_time e = sig_time s) l.
Proof. exact aggregate_fields. Qed.
Print Assumptions C23_aggregate_fields.

Theorem C23_wrong_pk_ciphersuite : forall (E : env) m (pp : pubparam E) s pks pk msg,
  In pk pks -> pk_cs pk <> pp_cs pp -> verify_aggregated m s pks pp msg = Ok false.
Proof. exact verify_aggregated_checks_cs. Qed.
Print Assumptions C23_wrong_pk_ciphersuite.

Theorem C23_wrong_sig_ciphersuite : forall (E : env) m (pp : pubparam E) s pks msg,
  sig_cs s <> pp_cs pp -> verify_aggregated m s pks pp msg = Ok false.
Proof. exact verify_aggregated_checks_sig_cs. Qed.
Print Assumptions C23_wrong_sig_ciphersuite.

Theorem C23_empty_lists_panic : forall (E : env) m (pp : pubparam E) s msg,
  aggregate (@nil (signature E)) = Panic P_INDEX
  /\ (sig_cs s = pp_cs pp -> verify_aggregated m s [] pp msg = Panic P_INDEX).
Proof. exact empty_lists_panic. Qed.
Print Assumptions C23_empty_lists_panic.

Example C23_example : aggregate [tsig7; tsig7b; tsig7] = Ok tagg
  /\ aggregate [tsig7; @Signature toy 0 8 (sig_1 tsig7b) (sig_2 tsig7b)] = Err E_TIME_STAMP
  /\ aggregate [tsig7; @Signature toy 1 8 (sig_1 tsig7b) (sig_2 tsig7b)] = Err E_CIPHERSUITE.
Proof. split; [vm_cast_no_check (eq_refl (Ok tagg))|]. split; reflexivity. Qed.

(** C24 *)
Theorem C24_aggregate_order : forall (E : env) (L : env_laws E) (l l' : list (signature E)) s,
  Permutation l l' -> (aggregate l = Ok s <-> aggregate l' = Ok s).
Proof. exact aggregate_order_independent. Qed.
Print Assumptions C24_aggregate_order.

Theorem C24_verify_order : forall (E : env) (L : env_laws E) m (pp : pubparam E) s pks pks' msg,
  Permutation pks pks' -> verify_aggregated m s pks pp msg = verify_aggregated m s pks' pp msg.
Proof. exact verify_aggregated_order_independent. Qed.
Print Assumptions C24_verify_order.

Theorem C24_aggregate_of_aggregates : forall (E : env) (L : env_laws E) (ls : list (list (signature E))) aggs s,
  Forall2 (fun l a => aggregate l = Ok a) ls aggs ->
  (aggregate aggs = Ok s <-> aggregate (concat ls) = Ok s).
Proof. exact aggregate_of_aggregates. Qed.
Print Assumptions C24_aggregate_of_aggregates.

Example C24_example :
  aggregate [tsig7; tsig7; tsig7b] = Ok tagg /\ verify_aggregated Debug tagg [tpk4; tpk4; tpk4b] tpp4 (str "hello") = Ok true
  /\ verify_aggregated Debug tagg [tpk4; tpk4b] tpp4 (str "hello") = Ok false.
Proof.
  split; [apply (C24_aggregate_order toy toy_laws [tsig7; tsig7; tsig7b] [tsig7; tsig7b; tsig7] tagg);
    [apply perm_skip, perm_swap|vm_cast_no_check (eq_refl (Ok tagg))]|].
  split; [vm_cast_no_check (eq_refl (Ok true))|vm_cast_no_check (eq_refl (Ok false))].
Qed.

(** C25 *)
Theorem C25_verify_equation : forall (E : env) (L : env_laws E) m (pp : pubparam E) s pk msg,
  pp_ok pp -> g2_insub (pk_pk pk) = true ->
  (verify m s pk pp msg = Ok true <->
   (pp_cs pp = 0 \/ pp_cs pp = 1) /\ sig_cs s = pp_cs pp
   /\ g2_insub (sig_1 s) = true /\ g1_insub (sig_2 s) = true
   /\ exists v, node_at (pp_depth pp) (sig_time s) v
      /\ pairing (pp_g2 pp) (sig_2 s)
         = gt_mul (pairing (sig_1 s) (sig_val pp v (msg_scalar pp msg))) (pairing (pk_pk pk) (pp_h pp))).
Proof. exact verify_equation. Qed.
Print Assumptions C25_verify_equation.

Theorem C25_verify_total : forall (E : env) (L : env_laws E) m (pp : pubparam E) s pk msg,
  pp_ok pp -> exists b, verify m s pk pp msg = Ok b.
Proof. exact verify_total. Qed.
Print Assumptions C25_verify_total.

Theorem C25_build_modes_agree : forall (E : env) (L : env_laws E) (pp : pubparam E) s pk msg,
  pp_ok pp -> g2_insub (pk_pk pk) = true -> verify Debug s pk pp msg = verify Release s pk pp msg.
Proof. exact verify_modes_agree. Qed.
Print Assumptions C25_build_modes_agree.

Example C25_example : node_at 4 7 [1; 2; 1] /\ g2_insub (pk_pk tpk4) = true
  /\ verify Debug tsig7 tpk4 tpp4 (str "hello") = Ok true
  /\ verify Debug (@Signature toy 0 8 (sig_1 tsig7) (sig_2 tsig7)) tpk4 tpp4 (str "hello") = Ok false
  /\ verify Debug (@Signature toy 0 16 (sig_1 tsig7) (sig_2 tsig7)) tpk4 tpp4 (str "hello") = Ok false.
Proof.
  split; [split; [discriminate|reflexivity]|]. split; [reflexivity|].
  split; [vm_cast_no_check (eq_refl (Ok true))|].
  split; [vm_cast_no_check (eq_refl (Ok false))|vm_cast_no_check (eq_refl (Ok false))].
Qed.

(** C26 *)
Theorem C26_second_component_unique : forall (E : env) (L : env_laws E) m m' (pp : pubparam E) s s' pk msg,
  pp_ok pp -> pp_g2 pp <> g2_zero -> g2_insub (pk_pk pk) = true ->
  verify m s pk pp msg = Ok true -> verify m' s' pk pp msg = Ok true ->
  sig_time s = sig_time s' -> sig_1 s = sig_1 s' -> s = s'.
Proof. exact second_component_unique. Qed.
Print Assumptions C26_second_component_unique.

Theorem C26_accepted_form : forall (E : env) (L : env_laws E) m (pp : pubparam E) s pk msg x,
  pp_ok pp -> pp_g2 pp = g2_one -> pk_pk pk = g2_mul x (pp_g2 pp) ->
  (verify m s pk pp msg = Ok true <->
   (pp_cs pp = 0 \/ pp_cs pp = 1)
   /\ exists v k, node_at (pp_depth pp) (sig_time s) v
                  /\ s = honest_sig pp x (sig_time s) v (msg_scalar pp msg) k).
Proof. exact accepted_form. Qed.
Print Assumptions C26_accepted_form.

Example C26_example : pp_g2 tpp4 = g2_one /\ pp_g2 tpp4 <> g2_zero
  /\ verify Debug (@Signature toy 0 7 (sig_1 tsig7) (@g1_add toy (sig_2 tsig7) (pp_h tpp4))) tpk4 tpp4 (str "hello") = Ok false.
Proof.
  split; [reflexivity|]. split; [|vm_cast_no_check (eq_refl (Ok false))].
  exact (l2_one_nz toy toy_laws).
Qed.

(** C27 *)
Theorem C27_bound_to_message : forall (E : env) (L : env_laws E) m m' (pp : pubparam E) s pk msg msg',
  pp_ok pp -> g2_insub (pk_pk pk) = true -> sig_1 s <> g2_zero ->
  nth (pp_depth pp) (pp_hlist pp) g1_zero <> g1_zero ->
  verify m s pk pp msg = Ok true -> verify m' s pk pp msg' = Ok true ->
  msg_scalar pp msg = msg_scalar pp msg'.
Proof. exact bound_to_message. Qed.
Print Assumptions C27_bound_to_message.

Theorem C27_bound_to_time : forall (E : env) (L : env_laws E) m m' (pp : pubparam E) s pk msg t v v',
  pp_ok pp -> g2_insub (pk_pk pk) = true -> sig_1 s <> g2_zero ->
  verify m s pk pp msg = Ok true ->
  verify m' (Signature (sig_cs s) t (sig_1 s) (sig_2 s)) pk pp msg = Ok true ->
  node_at (pp_depth pp) (sig_time s) v -> node_at (pp_depth pp) t v' ->
  node_val pp v = node_val pp v'.
Proof. exact bound_to_time. Qed.
Print Assumptions C27_bound_to_time.

(** The first component must not be the identity: with it, neither holds. *)
Theorem C27_identity_unbound : forall (E : env) (L : env_laws E) m (pp : pubparam E) s2 pk msg msg' t t',
  pp_ok pp -> g2_insub (pk_pk pk) = true ->
  1 <= t <= last_time (pp_depth pp) -> 1 <= t' <= last_time (pp_depth pp) ->
  verify m (Signature (pp_cs pp) t g2_zero s2) pk pp msg = Ok true ->
  verify m (Signature (pp_cs pp) t' g2_zero s2) pk pp msg' = Ok true.
Proof. exact identity_unbound. Qed.
Print Assumptions C27_identity_unbound.

Example C27_example :
  sig_1 tsig7 <> g2_zero /\ nth (pp_depth tpp4) (pp_hlist tpp4) g1_zero <> g1_zero
  /\ verify Debug tsig7 tpk4 tpp4 (str "hello") = Ok true.
Proof.
  split; [|split; [|vm_cast_no_check (eq_refl (Ok true))]].
  - intros H. apply (l2_eqb toy toy_laws) in H. revert H.
    assert (Hb : @g2_eqb toy (sig_1 tsig7) g2_zero = false) by vm_cast_no_check (eq_refl false).
    rewrite Hb. intros H; discriminate H.
  - intros H. apply (l1_eqb toy toy_laws) in H. revert H.
    assert (Hb : @g1_eqb toy (nth (pp_depth tpp4) (pp_hlist tpp4) g1_zero) g1_zero = false) by vm_cast_no_check (eq_refl false).
    rewrite Hb. intros H; discriminate H.
Qed.

(** C28: verify never looks at the ciphersuite of the public key. *)
Theorem C28_verify_ignores_pk_ciphersuite : forall (E : env) m (pp : pubparam E) s cs cs' p msg,
  verify m s (PubKey cs p) pp msg = verify m s (PubKey cs' p) pp msg.
Proof. exact verify_ignores_pk_cs. Qed.
Print Assumptions C28_verify_ignores_pk_ciphersuite.

Theorem C28_ciphersuite_checked_refuted : exists (E : env) (pp : pubparam E) pk s msg,
  env_laws E /\ pp_ok pp /\ pk_cs pk <> pp_cs pp /\ verify Debug s pk pp msg = Ok true
  /\ verify_aggregated Debug s [pk] pp msg = Ok false.
Proof. exact verify_accepts_other_cs. Qed.
Print Assumptions C28_ciphersuite_checked_refuted.

(** C43.  Validation does not check subgroup membership, which deserialization does. *)
Theorem C43_validate_iff : forall (E : env) (L : env_laws E) m (pp : pubparam E) sk pk,
  pp_ok pp -> g2_insub (pk_pk pk) = true ->
  Forall (fun s => g2_insub (sk_g2r s) = true /\ g1_insub (sk_hpoly s) = true) (sec_ssk sk) ->
  (sk_validate m sk pk pp = Ok true <->
   sec_cs sk = pp_cs pp /\ pk_cs pk = pp_cs pp /\ 1 <= sec_time sk <= last_time (pp_depth pp)
   /\ (exists rest, tiling (pp_depth pp) (sec_time sk) (map sk_t (sec_ssk sk) ++ rest))
   /\ Forall (ssk_equation pp pk) (sec_ssk sk)).
Proof. exact validate_iff. Qed.
Print Assumptions C43_validate_iff.

Theorem C43_validated_form : forall (E : env) (L : env_laws E) (pp : pubparam E) pk s x,
  pp_ok pp -> pp_g2 pp = g2_one -> pk_pk pk = g2_mul x (pp_g2 pp) ->
  g2_insub (sk_g2r s) = true -> g1_insub (sk_hpoly s) = true ->
  (ssk_equation pp pk s <->
   exists v r, node_at (pp_depth pp) (sk_t s) v /\ sk_g2r s = sk_g2r (honest_ssk pp x (sk_t s) v r)
               /\ sk_hpoly s = sk_hpoly (honest_ssk pp x (sk_t s) v r)).
Proof. exact validated_ssk_form. Qed.
Print Assumptions C43_validated_form.

Example C43_example : sk_validate Debug tsk7 tpk4 tpp4 = Ok true
  /\ Forall (fun s => g2_insub (sk_g2r s) = true /\ g1_insub (sk_hpoly s) = true) (sec_ssk tsk7)
  /\ sk_validate Debug tsk7b tpk4 tpp4 = Ok false.
Proof.
  split; [vm_cast_no_check (eq_refl (Ok true))|]. split; [|vm_cast_no_check (eq_refl (Ok false))].
  assert (H : forallb (fun s : subkey toy => g2_insub (sk_g2r s) && g1_insub (sk_hpoly s)) (sec_ssk tsk7) = true)
    by vm_cast_no_check (eq_refl true).
  apply Forall_forall. intros s Hs. rewrite forallb_forall in H. apply andb_true_iff, H, Hs.
Qed.

(** C44 *)
Theorem C44_empty_key_validates : forall (E : env) m (pp : pubparam E) pk t g,
  (1 <= pp_depth pp < 64)%nat -> pk_cs pk = pp_cs pp -> 1 <= t <= last_time (pp_depth pp) ->
  sk_validate m (SecKey (pp_cs pp) t [] g) pk pp = Ok true.
Proof. exact validate_empty. Qed.
Print Assumptions C44_empty_key_validates.

Theorem C44_truncated_key_validates : forall (E : env) m (pp : pubparam E) pk cs t l l' g,
  sk_validate m (SecKey cs t (l ++ l') g) pk pp = Ok true -> sk_validate m (SecKey cs t l g) pk pp = Ok true.
Proof. exact validate_prefix. Qed.
Print Assumptions C44_truncated_key_validates.

Theorem C44_vectors_not_checked : forall (E : env) m (pp : pubparam E) pk cs t l l' g,
  Forall2 (fun s s' => sk_t s' = sk_t s /\ sk_g2r s' = sk_g2r s /\ sk_hpoly s' = sk_hpoly s) l l' ->
  sk_validate m (SecKey cs t l' g) pk pp = sk_validate m (SecKey cs t l g) pk pp.
Proof. exact validate_ignores_vectors. Qed.
Print Assumptions C44_vectors_not_checked.

Theorem C44_extra_subkey_panics : forall (E : env) (L : env_laws E) m (pp : pubparam E) pk sk s,
  pp_ok pp -> sk_validate m sk pk pp = Ok true ->
  tiling (pp_depth pp) (sec_time sk) (map sk_t (sec_ssk sk)) -> ssk_validate m s pk pp = Ok true ->
  sk_validate m (SecKey (sec_cs sk) (sec_time sk) (sec_ssk sk ++ [s]) (sec_prng sk)) pk pp = Panic P_INDEX.
Proof. exact validate_extra_panics. Qed.
Print Assumptions C44_extra_subkey_panics.

Theorem C44_validated_key_complete_refuted : exists (E : env) (pp : pubparam E) pk sk sk2,
  env_laws E /\ pp_ok pp
  /\ sk_validate Debug sk pk pp = Ok true /\ sec_ssk sk = []
  /\ (forall msg, is_ok (fst (sign_present Debug (sec_time sk) pp msg sk)) = false)
  /\ sk_validate Debug sk2 pk pp = Ok true /\ map sk_t (sec_ssk sk2) = [7; 8; 9]
  /\ (exists blob, from_slice (sk_deserialize true) blob = Ok sk2)
  /\ fst (sign_present Debug (sec_time sk2) pp [] sk2) = Err E_SSK_EMPTY.
Proof. exact validated_key_unusable. Qed.
Print Assumptions C44_validated_key_complete_refuted.

Theorem C44_validate_total_refuted : exists (E : env) (pp : pubparam E) pk sk,
  env_laws E /\ pp_ok pp /\ (exists blob, from_slice (sk_deserialize true) blob = Ok sk)
  /\ sk_validate Debug sk pk pp = Panic P_INDEX.
Proof. exact validate_can_panic. Qed.
Print Assumptions C44_validate_total_refuted.

(** C52 *)
Theorem C52_secret_key_equality : forall (E : env) (L : env_laws E) (a b : seckey E), sk_eqb a b = true <-> a = b.
Proof. exact seckey_equality. Qed.
Print Assumptions C52_secret_key_equality.

Theorem C52_public_key_equality : forall (E : env) (L : env_laws E) (a b : pubkey E), pk_eqb a b = true <-> a = b.
Proof. exact pubkey_equality. Qed.
Print Assumptions C52_public_key_equality.

Theorem C52_signature_equality : forall (E : env) (L : env_laws E) (a b : signature E),
  sig_eqb a b = true <-> sig_1 a = sig_1 b /\ sig_2 a = sig_2 b.
Proof. exact signature_equality. Qed.
Print Assumptions C52_signature_equality.

Theorem C52_signature_equality_all_fields_refuted : exists (E : env) (a b : signature E),
  env_laws E /\ sig_eqb a b = true /\ sig_time a <> sig_time b /\ sig_cs a <> sig_cs b.
Proof. exact signature_equality_loose. Qed.
Print Assumptions C52_signature_equality_all_fields_refuted.

Example C52_example : sk_eqb tsk7 tsk7 = true /\ sk_eqb tsk7 tsk12 = false /\ pk_eqb tpk4 (tpk4_cs 1) = false.
Proof.
  split; [apply (C52_secret_key_equality toy toy_laws); reflexivity|].
  split; [vm_cast_no_check (eq_refl false)|reflexivity].
Qed.

(** C56 *)
Theorem C56_identity_key_rejected_refuted : forall (E : env) (L : env_laws E) m (pp : pubparam E) cs t msg,
  pp_ok pp -> (pp_cs pp = 0 \/ pp_cs pp = 1) -> 1 <= t <= last_time (pp_depth pp) ->
  verify m (Signature (pp_cs pp) t g2_zero g1_zero) (PubKey cs g2_zero) pp msg = Ok true.
Proof. exact identity_key_accepts. Qed.
Print Assumptions C56_identity_key_rejected_refuted.

Theorem C56_only_the_identity_key : forall (E : env) (L : env_laws E) m (pp : pubparam E) pk t msg,
  pp_ok pp -> g2_insub (pk_pk pk) = true -> pp_h pp <> g1_zero ->
  verify m (Signature (pp_cs pp) t g2_zero g1_zero) pk pp msg = Ok true -> pk_pk pk = g2_zero.
Proof. exact identity_signature_only. Qed.
Print Assumptions C56_only_the_identity_key.

Example C56_example : pp_cs tpp4 = 0 /\ 1 <= 9 <= last_time (pp_depth tpp4)
  /\ from_slice (pk_deserialize true) (0 :: repeat 0 48) = Ok (@PubKey toy 0 g2_zero).
Proof.
  split; [reflexivity|]. split; [split; intros H; discriminate H|].
  vm_cast_no_check (eq_refl (Ok (@PubKey toy 0 (mk r2 0)))).
Qed.
