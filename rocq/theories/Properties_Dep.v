(** Property C117: parameters of different depth.
    Specification vocabulary: SpecDep.v ([shallower], [recut], [lone_key], [akin]), SpecParam.v ([spec_param]),
    SpecOwn.v ([relabel]), SpecKey.v ([pp_ok], [sig_val], [msg_scalar]), SpecTime.v ([node_at], [last_time]). *)
From Coq Require Import String.
From Verif Require Import Base Env Time SpecTime Prng SpecPrng SubKey SecretKey Keys Sig Api SpecKey SpecUpdate SpecAgg SpecParam DepProps Toy ToyRun WitSigProps SpecOwn SpecDep.
Local Open Scope N_scope.

(** C117 *)
Theorem C117_parameters : forall (E : env) (h2c : bytes -> bytes -> G1 E) seed cs d d', (d <= d')%nat ->
  spec_param h2c seed cs d = shallower d (spec_param h2c seed cs d').
Proof. exact spec_param_shallower. Qed.
Print Assumptions C117_parameters.
Theorem C117_parameters_ok : forall (E : env) (pp : pubparam E) d, pp_ok pp -> (1 <= d <= pp_depth pp)%nat -> pp_ok (shallower d pp).
Proof. exact shallower_ok. Qed.
Print Assumptions C117_parameters_ok.
Theorem C117_key_gen : forall (E : env) (pp : pubparam E) d seed pk sk pop, pp_ok pp -> (d <= pp_depth pp)%nat ->
  key_gen seed pp = Ok (pk, sk, pop) ->
  key_gen seed (shallower d pp)
  = Ok (pk, SecKey (sec_cs sk) (sec_time sk) (map (recut (pp_depth pp - d) 1) (sec_ssk sk)) (sec_prng sk), pop).
Proof. exact key_gen_shallower. Qed.
Print Assumptions C117_key_gen.
Theorem C117_deep_key_signs : forall (E : env) (L : env_laws E) m m1 m2 (pp : pubparam E) pk sk s v d t w t' msg g,
  pp_ok pp -> (1 <= d <= pp_depth pp)%nat -> reachable m pp pk sk -> In s (sec_ssk sk) -> node_at (pp_depth pp) (sk_t s) v ->
  node_at d t v -> node_at d t' (v ++ w) ->
  exists s' sg, (w = [] /\ s' = recut (pp_depth pp - d) t s \/ w <> [] /\ delegate m1 t' d (recut (pp_depth pp - d) t s) = (Ok tt, s'))
    /\ sign_present m1 t' (shallower d pp) msg (lone_key (pp_cs pp) s' g) = (Ok sg, lone_key (pp_cs pp) s' g)
    /\ sig_time sg = t' /\ verify m2 sg pk (shallower d pp) msg = Ok true.
Proof. exact deep_key_signs. Qed.
Print Assumptions C117_deep_key_signs.
Theorem C117_deep_key_reach : forall (E : env) (L : env_laws E) m m1 m2 (pp : pubparam E) pk sk d p t T msg g,
  pp_ok pp -> (1 <= d <= pp_depth pp)%nat -> reachable m pp pk sk -> node_at d t p -> node_at (pp_depth pp) T p -> sec_time sk <= T ->
  exists s a s' sg, In s (sec_ssk sk) /\ a <= t
    /\ (a = t /\ s' = recut (pp_depth pp - d) a s \/ a < t /\ delegate m1 t d (recut (pp_depth pp - d) a s) = (Ok tt, s'))
    /\ sign_present m1 t (shallower d pp) msg (lone_key (pp_cs pp) s' g) = (Ok sg, lone_key (pp_cs pp) s' g)
    /\ sig_time sg = t /\ verify m2 sg pk (shallower d pp) msg = Ok true.
Proof. exact deep_key_reach. Qed.
Print Assumptions C117_deep_key_reach.
Theorem C117_deep_time : forall d d' p t T, (d <= d')%nat -> node_at d t p -> node_at d' T p -> t <= T.
Proof. exact deep_time. Qed.
Print Assumptions C117_deep_time.
Theorem C117_other_parameters : forall (E : env) (L : env_laws E) m m1 m2 (pp pp' : pubparam E) pk sk msg,
  pp_ok pp -> pp_ok pp' -> akin pp pp' -> reachable m pp pk sk -> sec_time sk <= last_time (pp_depth pp') ->
  exists v v' s0 rest sg, node_at (pp_depth pp) (sec_time sk) v /\ node_at (pp_depth pp') (sec_time sk) v' /\ sec_ssk sk = s0 :: rest
    /\ sign_present m1 (sec_time sk) pp' msg sk = (Ok sg, sk) /\ sig_time sg = sec_time sk
    /\ (verify m2 sg pk pp' msg = Ok true
        <-> sig_val pp v (msg_scalar pp msg) = sig_val pp' v' (msg_scalar pp msg) \/ sk_g2r s0 = g2_zero)
    /\ (verify m2 sg pk pp msg = Ok true
        <-> sig_val pp v (msg_scalar pp msg) = sig_val pp' v' (msg_scalar pp msg)
            \/ g2_mul (spec_scalar (sha512 E) (sec_prng sk) (sign_info msg (sec_time sk))) (pp_g2 pp) = g2_zero).
Proof. exact other_parameters. Qed.
Print Assumptions C117_other_parameters.
Theorem C117_accepted_in_both : forall (E : env) (L : env_laws E) m m' (pp pp' : pubparam E) s pk msg v t' v' msg',
  pp_ok pp -> pp_ok pp' -> akin pp pp' -> g2_insub (pk_pk pk) = true -> sig_1 s <> g2_zero -> verify m s pk pp msg = Ok true ->
  node_at (pp_depth pp) (sig_time s) v -> node_at (pp_depth pp') t' v' ->
  (verify m' (relabel t' s) pk pp' msg' = Ok true <-> sig_val pp v (msg_scalar pp msg) = sig_val pp' v' (msg_scalar pp' msg')).
Proof. exact accepted_in_both. Qed.
Print Assumptions C117_accepted_in_both.
Theorem C117_depth_separate_refuted : ~ (forall (E : env), env_laws E -> forall m (pp : pubparam E) pk sk s d t sg msg g,
  pp_ok pp -> (1 <= d <= pp_depth pp)%nat -> reachable m pp pk sk -> In s (sec_ssk sk) -> t < sec_time sk ->
  fst (sign_present m t (shallower d pp) msg (lone_key (pp_cs pp) (recut (pp_depth pp - d) t s) g)) = Ok sg ->
  verify m sg pk (shallower d pp) msg <> Ok true).
Proof. exact depth_separate_refuted. Qed.
Print Assumptions C117_depth_separate_refuted.

(** Depths 4 and 3, the same seed: the same public key and proof, and the sub key of the root has one entry less. *)
Example C117_example_keys :
  pp_depth (shallower 3 tpp4) = 3%nat /\ length (pp_hlist (shallower 3 tpp4)) = 4%nat /\ akin tpp4 (shallower 3 tpp4)
  /\ key_gen tseed (shallower 3 tpp4) = Ok (tpk4, SecKey 0 1 (map (recut 1 1) (sec_ssk tsk4)) (sec_prng tsk4), tpop4)
  /\ map (fun s => length (sk_hvec s)) (sec_ssk tsk4) = [4%nat]
  /\ map (fun s => length (sk_hvec s)) (map (recut 1 1) (sec_ssk tsk4)) = [3%nat].
Proof.
  split; [reflexivity|]. split; [reflexivity|]. split; [split; [reflexivity|split; reflexivity]|].
  split; [exact (C117_key_gen toy tpp4 3 tseed tpk4 tsk4 tpop4 tpp4_ok ltac:(repeat constructor) tkeygen)|].
  split; reflexivity.
Qed.

(** The key of depth 4 at time 7 holds the nodes [1;2;1], [1;2;2] and [2] (times 7, 8, 9).  In the tree of depth 3
    the last one is time 5, its children [2;1] and [2;2] are times 6 and 7. *)
Example C117_example_reach :
  sec_time tsk7 = 7 /\ map sk_t (sec_ssk tsk7) = [7; 8; 9]
  /\ node_at 4 9 [2] /\ node_at 3 5 [2] /\ node_at 4 13 [2; 2] /\ node_at 3 7 [2; 2]
  /\ (exists s a s' sg, In s (sec_ssk tsk7) /\ a <= 7
      /\ (a = 7 /\ s' = recut 1 a s \/ a < 7 /\ delegate Debug 7 3 (recut 1 a s) = (Ok tt, s'))
      /\ sign_present Debug 7 (shallower 3 tpp4) (str "hello") (lone_key 0 s' []) = (Ok sg, lone_key 0 s' [])
      /\ sig_time sg = 7 /\ verify Debug sg tpk4 (shallower 3 tpp4) (str "hello") = Ok true).
Proof.
  assert (H1 : node_at 3 7 [2; 2]) by (split; [discriminate|reflexivity]). assert (H2 : node_at 4 13 [2; 2]) by (split; [discriminate|reflexivity]).
  split; [reflexivity|]. split; [reflexivity|]. split; [split; [discriminate|reflexivity]|]. split; [split; [discriminate|reflexivity]|].
  split; [exact H2|]. split; [exact H1|].
  exact (C117_deep_key_reach toy toy_laws Debug Debug Debug tpp4 tpk4 tsk7 3 [2; 2] 7 13 (str "hello") [] tpp4_ok
    (conj (le_S _ _ (le_S _ _ (le_n 1))) (le_S _ _ (le_n 3))) tsk7_reachable H1 H2 ltac:(discriminate)).
Qed.

(** Signing at time 7 with the parameters of depth 3 and the key of depth 4: the nodes are [2;2] and [1;2;1], and the
    signature is accepted under neither. *)
Example C117_example_other :
  node_at 4 7 [1; 2; 1] /\ node_at 3 7 [2; 2]
  /\ sig_val tpp4 [1; 2; 1] (msg_scalar tpp4 (str "hello")) <> sig_val (shallower 3 tpp4) [2; 2] (msg_scalar tpp4 (str "hello"))
  /\ exists sg, fst (sign_present Debug 7 (shallower 3 tpp4) (str "hello") tsk7) = Ok sg
      /\ verify Debug sg tpk4 (shallower 3 tpp4) (str "hello") <> Ok true /\ verify Debug tsig7 tpk4 tpp4 (str "hello") = Ok true
      /\ verify Debug tsig7 tpk4 (shallower 3 tpp4) (str "hello") <> Ok true.
Proof.
  assert (Hne : sig_val tpp4 [1; 2; 1] (msg_scalar tpp4 (str "hello")) <> sig_val (shallower 3 tpp4) [2; 2] (msg_scalar tpp4 (str "hello"))).
  { intros H. apply (f_equal zv) in H.
    assert (Hb : (zv (sig_val tpp4 [1; 2; 1] (msg_scalar tpp4 (str "hello"))) =? zv (sig_val (shallower 3 tpp4) [2; 2] (msg_scalar tpp4 (str "hello")))) = false)
      by vm_cast_no_check (eq_refl false). apply N.eqb_neq in Hb. exact (Hb H). }
  assert (H1 : node_at 4 7 [1; 2; 1]) by (split; [discriminate|reflexivity]). assert (H2 : node_at 3 7 [2; 2]) by (split; [discriminate|reflexivity]).
  assert (Hok : pp_ok (shallower 3 tpp4)) by (apply (C117_parameters_ok toy tpp4 3 tpp4_ok); split; repeat constructor).
  assert (Hak : akin tpp4 (shallower 3 tpp4)) by (split; [reflexivity|split; reflexivity]).
  assert (Hv : verify Debug tsig7 tpk4 tpp4 (str "hello") = Ok true) by vm_cast_no_check (eq_refl (@Ok bool true)).
  split; [exact H1|]. split; [exact H2|]. split; [exact Hne|].
  destruct (C117_other_parameters toy toy_laws Debug Debug Debug tpp4 (shallower 3 tpp4) tpk4 tsk7 (str "hello") tpp4_ok Hok Hak tsk7_reachable ltac:(discriminate))
    as (v & v' & s0 & rest & sg & Hn & Hn' & Hs & Hsg & _ & Hiff & _).
  rewrite (TimeFacts.node_at_fun _ _ _ _ Hn H1), (TimeFacts.node_at_fun _ _ _ _ Hn' H2) in Hiff.
  exists sg. split; [change 7 with (sec_time tsk7); rewrite Hsg; reflexivity|].
  split; [intros H; apply Hiff in H as [H|H]; [exact (Hne H)|]; apply (f_equal (fun l => hd (tssk 0 0) l)) in Hs; cbn [hd] in Hs; rewrite <- Hs in H; apply (f_equal zv) in H; discriminate H|].
  split; [exact Hv|]. intros H.
  assert (Hr : relabel 7 tsig7 = tsig7) by reflexivity.
  assert (Hk : g2_insub (pk_pk tpk4) = true) by vm_cast_no_check (eq_refl true).
  assert (Hz : sig_1 tsig7 <> g2_zero) by (intros Hz; apply (f_equal zv) in Hz; discriminate Hz).
  pose proof (C117_accepted_in_both toy toy_laws Debug Debug tpp4 (shallower 3 tpp4) tsig7 tpk4 (str "hello") [1; 2; 1] 7 [2; 2] (str "hello")
    tpp4_ok Hok Hak Hk Hz Hv H1 H2) as Hb.
  rewrite Hr in Hb. exact (Hne (proj1 Hb H)).
Qed.
