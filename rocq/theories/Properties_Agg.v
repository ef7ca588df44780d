(** Properties C61-C69: aggregates, changed signatures, arbitrary keys, build modes
    (src/sig.rs, src/secret_key.rs, src/subkeys.rs, src/time.rs).
    Specification vocabulary: SpecAgg.v ([key_sum], [shift_sig], [rerandomized], [rogue],
    [usable]), SpecKey.v ([pp_ok], [sig_val], [honest_sig]), SpecTime.v ([node_at],
    [last_time]), SpecUpdate.v ([msg_scalar], [sign_info]), SpecPrng.v ([spec_scalar]). *)
From Coq Require Import String.
From Verif Require Import Base Env Time Hkdf SpecTime Prng SpecPrng SubKey SecretKey Keys Sig IO Serdes Api
  SpecKey SpecUpdate SpecSig SpecAgg AggProps ModeProps Toy ToyRun WitProps WitSigProps WitAggProps.
Local Open Scope N_scope.

(** C61 *)
Theorem C61_aggregated_equation : forall (E : env) (L : env_laws E) m (pp : pubparam E) s pks msg,
  pp_ok pp -> pks <> [] -> Forall (fun k => g2_insub (pk_pk k) = true) pks ->
  (verify_aggregated m s pks pp msg = Ok true <->
   (pp_cs pp = 0 \/ pp_cs pp = 1) /\ sig_cs s = pp_cs pp /\ Forall (fun k => pk_cs k = pp_cs pp) pks
   /\ g2_insub (sig_1 s) = true /\ g1_insub (sig_2 s) = true
   /\ exists v, node_at (pp_depth pp) (sig_time s) v
      /\ pairing (pp_g2 pp) (sig_2 s)
         = gt_mul (pairing (sig_1 s) (sig_val pp v (msg_scalar pp msg)))
                  (gt_prod (map (fun k => (pk_pk k, pp_h pp)) pks))).
Proof. exact aggregated_equation. Qed.
Print Assumptions C61_aggregated_equation.

Theorem C61_aggregated_total : forall (E : env) (L : env_laws E) m (pp : pubparam E) s pks msg,
  pp_ok pp -> pks <> [] -> exists b, verify_aggregated m s pks pp msg = Ok b.
Proof. exact aggregated_total. Qed.
Print Assumptions C61_aggregated_total.

Theorem C61_single_key : forall (E : env) m (pp : pubparam E) s pk msg,
  verify_aggregated m s [pk] pp msg = if pk_cs pk =? pp_cs pp then verify m s pk pp msg else Ok false.
Proof. exact aggregated_single. Qed.
Print Assumptions C61_single_key.

Example C61_example : Forall (fun k : pubkey toy => g2_insub (pk_pk k) = true) [tpk4; tpk4b]
  /\ (exists a, aggregate [tsig7; tsig7b] = Ok a /\ verify_aggregated Debug a [tpk4; tpk4b] tpp4 (str "hello") = Ok true
                /\ verify_aggregated Debug a [tpk4; tpk4] tpp4 (str "hello") = Ok false).
Proof.
  split; [repeat constructor|]. eexists. split; [reflexivity|].
  split; [vm_cast_no_check (eq_refl (Ok true))|vm_cast_no_check (eq_refl (Ok false))].
Qed.

(** C62 *)
Theorem C62_every_signer_signed_refuted : forall (E : env) (L : env_laws E) m (pp : pubparam E) pks y t v k msg,
  pp_ok pp -> (pp_cs pp = 0 \/ pp_cs pp = 1) -> Forall (usable pp) pks -> node_at (pp_depth pp) t v ->
  usable pp (rogue pp y pks)
  /\ verify_aggregated m (honest_sig pp y t v (msg_scalar pp msg) k) (rogue pp y pks :: pks) pp msg = Ok true.
Proof. exact rogue_key. Qed.
Print Assumptions C62_every_signer_signed_refuted.

Example C62_example : Forall (usable tpp4) [tpk4; tpk4b] /\ node_at (pp_depth tpp4) 7 [1; 2; 1]
  /\ verify_aggregated Debug (honest_sig tpp4 5 7 [1; 2; 1] (msg_scalar tpp4 (str "never signed")) 9)
       [rogue tpp4 5 [tpk4; tpk4b]; tpk4; tpk4b] tpp4 (str "never signed") = Ok true.
Proof.
  split; [repeat constructor|]. split; [split; [discriminate|reflexivity]|]. vm_cast_no_check (eq_refl (Ok true)).
Qed.

(** C63 *)
Theorem C63_only_signer_makes_second_refuted : forall (E : env) (L : env_laws E) m m' (pp : pubparam E) s pk msg v k,
  pp_ok pp -> g2_insub (pk_pk pk) = true -> node_at (pp_depth pp) (sig_time s) v ->
  verify m s pk pp msg = Ok true ->
  verify m' (rerandomized pp v (msg_scalar pp msg) k s) pk pp msg = Ok true.
Proof. exact rerandomized_accepted. Qed.
Print Assumptions C63_only_signer_makes_second_refuted.

Theorem C63_different_unless_zero : forall (E : env) (L : env_laws E) (pp : pubparam E) v M k s,
  pp_ok pp -> pp_g2 pp <> g2_zero -> (rerandomized pp v M k s = s <-> k mod fr_modulus = 0).
Proof. exact rerandomized_same. Qed.
Print Assumptions C63_different_unless_zero.

Theorem C63_all_accepted_differ_so : forall (E : env) (L : env_laws E) m m' (pp : pubparam E) s s' pk msg v,
  pp_ok pp -> pp_g2 pp = g2_one -> g2_insub (pk_pk pk) = true ->
  verify m s pk pp msg = Ok true -> verify m' s' pk pp msg = Ok true ->
  sig_time s' = sig_time s -> node_at (pp_depth pp) (sig_time s) v ->
  exists k, s' = rerandomized pp v (msg_scalar pp msg) k s.
Proof. exact accepted_differ. Qed.
Print Assumptions C63_all_accepted_differ_so.

Example C63_example : node_at (pp_depth tpp4) (sig_time tsig7) [1; 2; 1]
  /\ verify Debug (rerandomized tpp4 [1; 2; 1] (msg_scalar tpp4 (str "hello")) 3 tsig7) tpk4 tpp4 (str "hello") = Ok true
  /\ sig_eqb (rerandomized tpp4 [1; 2; 1] (msg_scalar tpp4 (str "hello")) 3 tsig7) tsig7 = false.
Proof.
  split; [split; [discriminate|reflexivity]|]. split; [vm_cast_no_check (eq_refl (Ok true))|vm_cast_no_check (eq_refl false)].
Qed.

(** C64 *)
Theorem C64_accepted_parts_refuted : forall (E : env) (L : env_laws E) m m' (pp : pubparam E) s1 s2 pk1 pk2 msg D D',
  pp_ok pp -> pp_g2 pp <> g2_zero -> g2_insub (pk_pk pk1) = true -> g2_insub (pk_pk pk2) = true ->
  verify m s1 pk1 pp msg = Ok true -> verify m s2 pk2 pp msg = Ok true ->
  D <> g1_zero -> g1_add D D' = g1_zero ->
  verify m' (shift_sig s1 g2_zero D) pk1 pp msg = Ok false
  /\ verify m' (shift_sig s2 g2_zero D') pk2 pp msg = Ok false
  /\ aggregate [shift_sig s1 g2_zero D; shift_sig s2 g2_zero D'] = aggregate [s1; s2].
Proof. exact rejected_parts. Qed.
Print Assumptions C64_accepted_parts_refuted.

Theorem C64_last_part_accepted : forall (E : env) (L : env_laws E) m m' m'' (pp : pubparam E) s pk (l : list (signature E * pubkey E)) a msg,
  pp_ok pp -> g2_insub (pk_pk pk) = true -> Forall (fun sp => g2_insub (pk_pk (snd sp)) = true) l ->
  Forall (fun sp => verify m (fst sp) (snd sp) pp msg = Ok true) l ->
  aggregate (s :: map fst l) = Ok a -> verify_aggregated m' a (pk :: map snd l) pp msg = Ok true ->
  verify m'' s pk pp msg = Ok true.
Proof. exact last_part_accepted. Qed.
Print Assumptions C64_last_part_accepted.

Example C64_example : @g1_eqb toy tD g1_zero = false /\ @g1_add toy tD tD' = g1_zero
  /\ verify Debug tsig7 tpk4 tpp4 (str "hello") = Ok true /\ verify Debug tsig7b tpk4b tpp4 (str "hello") = Ok true
  /\ verify Debug (shift_sig tsig7 g2_zero tD) tpk4 tpp4 (str "hello") = Ok false
  /\ (exists a, aggregate [shift_sig tsig7 g2_zero tD; shift_sig tsig7b g2_zero tD'] = Ok a
                /\ verify_aggregated Debug a [tpk4; tpk4b] tpp4 (str "hello") = Ok true).
Proof.
  split; [exact (proj1 tD_ok)|]. split; [exact (proj2 tD_ok)|].
  split; [vm_cast_no_check (eq_refl (Ok true))|]. split; [vm_cast_no_check (eq_refl (Ok true))|].
  split; [vm_cast_no_check (eq_refl (Ok false))|]. eexists. split; [reflexivity|vm_cast_no_check (eq_refl (Ok true))].
Qed.

(** C65 *)
Theorem C65_reused_randomness : forall (E : env) (L : env_laws E) m m' m'' (pp : pubparam E) M M' M'',
  pp_ok pp -> M < fr_modulus -> M' < fr_modulus -> M <> M' ->
  exists a b, forall s s' pk msg msg' msg'',
    g2_insub (pk_pk pk) = true -> msg_scalar pp msg = M -> msg_scalar pp msg' = M' -> msg_scalar pp msg'' = M'' ->
    verify m s pk pp msg = Ok true -> verify m' s' pk pp msg' = Ok true ->
    sig_time s' = sig_time s -> sig_1 s' = sig_1 s ->
    verify m'' (Signature (sig_cs s) (sig_time s) (sig_1 s) (g1_add (g1_mul a (sig_2 s)) (g1_mul b (sig_2 s')))) pk pp msg''
    = Ok true.
Proof. exact reused_randomness. Qed.
Print Assumptions C65_reused_randomness.

Theorem C65_same_first_component : forall (E : env) (L : env_laws E) m m' m'' (pp : pubparam E) pk sk msg msg' s s',
  pp_ok pp -> pp_g2 pp <> g2_zero -> reachable m pp pk sk ->
  fst (sign_present m' (sec_time sk) pp msg sk) = Ok s -> fst (sign_present m'' (sec_time sk) pp msg' sk) = Ok s' ->
  (sig_1 s = sig_1 s' <->
   spec_scalar (sha512 E) (sec_prng sk) (sign_info msg (sec_time sk))
   = spec_scalar (sha512 E) (sec_prng sk) (sign_info msg' (sec_time sk))).
Proof. exact same_first_component. Qed.
Print Assumptions C65_same_first_component.

Example C65_example : sig_1 tsame1 = sig_1 tsame2 /\ sig_time tsame1 = sig_time tsame2
  /\ (msg_scalar tpp4 (str "hello") =? msg_scalar tpp4 (str "world")) = false
  /\ verify Debug tsame1 tpk5 tpp4 (str "hello") = Ok true /\ verify Debug tsame2 tpk5 tpp4 (str "world") = Ok true.
Proof.
  split; [reflexivity|]. split; [reflexivity|]. split; [vm_cast_no_check (eq_refl false)|].
  split; [vm_cast_no_check (eq_refl (Ok true))|vm_cast_no_check (eq_refl (Ok true))].
Qed.

(** C66.  [update] and the checks agree for every key value; signing and updating needs a
    time stamp below 2^64 - 1, which every reachable key has. *)
Theorem C66_histories_agree : forall (E : env) (L : env_laws E) m m' m'' (pp : pubparam E) pk sk ops,
  pp_ok pp -> reachable m pp pk sk ->
  run m' pp ops sk = run m'' pp ops sk.
Proof. exact run_mode. Qed.
Print Assumptions C66_histories_agree.

Theorem C66_reachable_keys_agree : forall (E : env) (L : env_laws E) m m' (pp : pubparam E) pk sk,
  pp_ok pp -> reachable m pp pk sk -> reachable m' pp pk sk.
Proof. exact reachable_mode. Qed.
Print Assumptions C66_reachable_keys_agree.

Theorem C66_update_agrees : forall (E : env) m m' (pp : pubparam E) t seed sk,
  (pp_depth pp < 64)%nat -> update m pp t seed sk = update m' pp t seed sk.
Proof. exact update_mode. Qed.
Print Assumptions C66_update_agrees.

Theorem C66_calls_agree : forall (E : env) m m' (pp : pubparam E) o sk,
  (pp_depth pp < 64)%nat -> sec_time sk < 18446744073709551615 -> step m pp o sk = step m' pp o sk.
Proof. exact calls_mode. Qed.
Print Assumptions C66_calls_agree.

Theorem C66_checks_agree : forall (E : env) m m' (pp : pubparam E) s pk pks sk msg,
  (pp_depth pp < 64)%nat ->
  verify m s pk pp msg = verify m' s pk pp msg
  /\ verify_aggregated m s pks pp msg = verify_aggregated m' s pks pp msg
  /\ sk_validate m sk pk pp = sk_validate m' sk pk pp.
Proof. exact checks_mode. Qed.
Print Assumptions C66_checks_agree.

(** Without the bounds they do not agree. *)
Theorem C66_depth_64_refuted : forall (E : env) (pp : pubparam E) t seed sk,
  pp_depth pp = 64%nat -> sec_cs sk = pp_cs pp -> 0 < t ->
  update Debug pp t seed sk = (Panic P_ARITH, sk) /\ update Release pp t seed sk = (Err E_TIME_STAMP, sk).
Proof. exact depth64_modes_differ. Qed.
Print Assumptions C66_depth_64_refuted.

Theorem C66_any_key_value_refuted : exists (pp : pubparam toy) (sk : seckey toy) (o : op),
  pp_ok pp /\ fst (step Debug pp o sk) = Panic P_ARITH /\ fst (step Release pp o sk) = Err E_TIME_STAMP.
Proof. exact build_modes_can_differ. Qed.
Print Assumptions C66_any_key_value_refuted.

Example C66_example : reachable Debug tpp4 tpk4 tsk7 /\ reachable Release tpp4 tpk4 tsk7.
Proof. split; [exact tsk7_reachable|]. exact (C66_reachable_keys_agree toy toy_laws Debug Release tpp4 tpk4 tsk7 tpp4_ok tsk7_reachable). Qed.

(** C67 *)
Theorem C67_sign_any_key : forall (E : env) (L : env_laws E) m (pp : pubparam E) sk t msg,
  pp_ok pp ->
  snd (sign_present m t pp msg sk) = sk
  /\ match fst (sign_present m t pp msg sk) with
     | Ok s => (pp_cs pp = 0 \/ pp_cs pp = 1) /\ sec_cs sk = pp_cs pp /\ sec_time sk = t
         /\ exists ssk rest v init last, sec_ssk sk = ssk :: rest /\ node_at (pp_depth pp) (sk_t ssk) v
              /\ sk_hvec ssk = init ++ [last]
              /\ let k := spec_scalar (sha512 E) (sec_prng sk) (sign_info msg t) in
                 s = Signature (pp_cs pp) t (g2_add (sk_g2r ssk) (g2_mul k (pp_g2 pp)))
                       (g1_add (g1_add (sk_hpoly ssk) (g1_mul (msg_scalar pp msg) last))
                               (g1_mul k (sig_val pp v (msg_scalar pp msg))))
     | Err e =>
         (e = E_TIME_STAMP /\ sec_time sk <> t)
         \/ (e = E_CIPHERSUITE /\ (~ (pp_cs pp = 0 \/ pp_cs pp = 1) \/ sec_cs sk <> pp_cs pp))
         \/ (e = E_SSK_EMPTY /\ sec_ssk sk = [])
         \/ exists ssk rest, sec_ssk sk = ssk :: rest
              /\ ((e = E_SSK_EMPTY /\ sk_hvec ssk = [])
                  \/ ((e = E_TIME_STAMP \/ e = E_TIME_DEPTH) /\ ~ (1 <= sk_t ssk <= last_time (pp_depth pp))))
     | Panic _ => False
     end.
Proof. exact sign_any_key. Qed.
Print Assumptions C67_sign_any_key.

Theorem C67_accepted_iff : forall (E : env) (L : env_laws E) m m' (pp : pubparam E) pk sk ssk rest init last msg s,
  pp_ok pp -> g2_insub (pk_pk pk) = true ->
  sec_ssk sk = ssk :: rest -> sk_t ssk = sec_time sk -> sk_hvec ssk = init ++ [last] ->
  g2_insub (sk_g2r ssk) = true -> g1_insub (sk_hpoly ssk) = true -> g1_insub last = true ->
  fst (sign_present m (sec_time sk) pp msg sk) = Ok s ->
  (verify m' s pk pp msg = Ok true <->
   exists v, node_at (pp_depth pp) (sec_time sk) v
     /\ pairing (pp_g2 pp) (g1_add (sk_hpoly ssk) (g1_mul (msg_scalar pp msg) last))
        = gt_mul (pairing (sk_g2r ssk) (sig_val pp v (msg_scalar pp msg))) (pairing (pk_pk pk) (pp_h pp))).
Proof. exact sign_any_accepted. Qed.
Print Assumptions C67_accepted_iff.

(** A key with wrong hpoly signs, and the signature is rejected; an empty key does not sign. *)
Example C67_example :
  (exists s, fst (sign_present Debug 7 tpp4 (str "hello") tsk_wrong) = Ok s /\ verify Debug s tpk4 tpp4 (str "hello") = Ok false)
  /\ fst (sign_present Debug 7 tpp4 (str "hello") (@SecKey toy 0 7 [] (repeat 0 64))) = Err E_SSK_EMPTY.
Proof.
  split; [|vm_cast_no_check (eq_refl (@Err (signature toy) E_SSK_EMPTY))].
  assert (H : match fst (sign_present Debug 7 tpp4 (str "hello") tsk_wrong) with
              | Ok s => verify Debug s tpk4 tpp4 (str "hello") = Ok false | _ => False end)
    by vm_cast_no_check (@eq_refl (res bool) (Ok false)).
  destruct (fst (sign_present Debug 7 tpp4 (str "hello") tsk_wrong)) as [s| |]; [|contradiction|contradiction].
  exists s. auto.
Qed.

(** C68 *)
Theorem C68_many_signers : forall (E : env) (L : env_laws E) m m' (pp : pubparam E) (l : list (pubkey E * proof E * seckey E)) t msg,
  pp_ok pp -> pp_g2 pp = g2_one -> l <> [] ->
  Forall (fun x => (exists seed sk0 ops, key_gen seed pp = Ok (fst (fst x), sk0, snd (fst x)) /\ snd (run m pp ops sk0) = snd x)
                   /\ sec_time (snd x) = t) l ->
  Forall (fun x => pk_validate (fst (fst x)) (snd (fst x)) = true) l
  /\ exists sigs agg, Forall2 (fun x s => sign_present m t pp msg (snd x) = (Ok s, snd x)) l sigs
       /\ aggregate sigs = Ok agg /\ verify_aggregated m' agg (map (fun x => fst (fst x)) l) pp msg = Ok true.
Proof. exact many_signers. Qed.
Print Assumptions C68_many_signers.

Example C68_example : pp_g2 tpp4 = g2_one
  /\ (exists seed sk0 ops, key_gen seed tpp4 = Ok (tpk4, sk0, tpop4) /\ snd (run Debug tpp4 ops sk0) = tsk7)
  /\ sec_time tsk7 = 7 /\ sec_time tsk7b = 7.
Proof.
  split; [reflexivity|]. split; [|split; reflexivity]. exists tseed, tsk4, thist. split; [exact tkeygen|].
  rewrite trun_ok. reflexivity.
Qed.

(** C69 *)
Theorem C69_init_by_randomization : forall (E : env) (L : env_laws E) m (pp : pubparam E) alpha r,
  pp_ok pp -> ssk_init_from_randomization m pp alpha r = ssk_init pp alpha r
              /\ exists s, ssk_init pp alpha r = Ok s.
Proof. exact init_by_randomization. Qed.
Print Assumptions C69_init_by_randomization.

Example C69_example : exists s, ssk_init_from_randomization Debug tpp4 (pp_h tpp4) 5 = Ok s /\ length (sk_hvec s) = 4%nat.
Proof. eexists. split; reflexivity. Qed.
