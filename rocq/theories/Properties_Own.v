(** Property C116: which public keys accept a signature, and what a signer is bound to.
    Specification vocabulary: SpecOwn.v ([relabel], [shifted_key], [blank_sig]), SpecAgg.v ([usable], [key_sum]),
    SpecKey.v ([pp_ok], [sig_val], [msg_scalar]), SpecTime.v ([node_at], [last_time]). *)
From Coq Require Import String.
From Verif Require Import Base Env Time SpecTime Prng SubKey SecretKey Keys Sig Api SpecKey SpecUpdate SpecAgg OwnProps Toy ToyRun WitSigProps SpecOwn.
Local Open Scope N_scope.

(** C116 *)
Theorem C116_one_key : forall (E : env) (L : env_laws E) m m' (pp : pubparam E) s pk pk' msg,
  pp_ok pp -> pp_h pp <> g1_zero -> g2_insub (pk_pk pk) = true -> g2_insub (pk_pk pk') = true ->
  verify m s pk pp msg = Ok true -> verify m' s pk' pp msg = Ok true -> pk_pk pk = pk_pk pk'.
Proof. exact one_key. Qed.
Print Assumptions C116_one_key.
Theorem C116_one_key_sum : forall (E : env) (L : env_laws E) m m' (pp : pubparam E) s pks pks' msg,
  pp_ok pp -> pp_h pp <> g1_zero -> pks <> [] -> pks' <> [] -> Forall (usable pp) pks -> Forall (usable pp) pks' ->
  verify_aggregated m s pks pp msg = Ok true ->
  (verify_aggregated m' s pks' pp msg = Ok true <-> key_sum pks = key_sum pks').
Proof. exact one_key_sum. Qed.
Print Assumptions C116_one_key_sum.
Theorem C116_shifted_key : forall (E : env) (L : env_laws E) m m' (pp : pubparam E) s pk msg v t' v' msg' c,
  pp_ok pp -> g2_insub (pk_pk pk) = true -> verify m s pk pp msg = Ok true ->
  node_at (pp_depth pp) (sig_time s) v -> node_at (pp_depth pp) t' v' -> (sig_1 s <> g2_zero) ->
  (verify m' (relabel t' s) (shifted_key c s pk) pp msg' = Ok true
   <-> sig_val pp v (msg_scalar pp msg) = g1_add (sig_val pp v' (msg_scalar pp msg')) (g1_mul c (pp_h pp))).
Proof. exact shifted_key_accepts. Qed.
Print Assumptions C116_shifted_key.
Theorem C116_blank : forall (E : env) (L : env_laws E) m (pp : pubparam E) cs x t msg,
  pp_ok pp -> (pp_cs pp = 0 \/ pp_cs pp = 1) -> 1 <= t <= last_time (pp_depth pp) ->
  verify m (blank_sig pp x t) (PubKey cs (g2_mul x (pp_g2 pp))) pp msg = Ok true.
Proof. exact blank_accepted. Qed.
Print Assumptions C116_blank.
Theorem C116_signer_unbound : forall (E : env) (L : env_laws E) m m' (pp : pubparam E) pk sk,
  pp_ok pp -> (pp_cs pp = 0 \/ pp_cs pp = 1) -> reachable m pp pk sk ->
  exists s2, forall t msg, 1 <= t <= last_time (pp_depth pp) ->
    verify m' (Signature (pp_cs pp) t g2_zero s2) pk pp msg = Ok true.
Proof. exact blank_binds_not. Qed.
Print Assumptions C116_signer_unbound.
Theorem C116_own_message_refuted : ~ (forall (E : env), env_laws E -> forall m (pp : pubparam E) pk sk s msg msg',
  pp_ok pp -> reachable m pp pk sk -> verify m s pk pp msg = Ok true -> verify m s pk pp msg' = Ok true ->
  msg_scalar pp msg = msg_scalar pp msg').
Proof. exact own_message_refuted. Qed.
Print Assumptions C116_own_message_refuted.

(** The signature at time 7 on "hello": another key does not accept it; the shifted key accepts it, relabelled,
    at time 5 for "other", with a factor that needs the logarithms of the parameters. *)
Definition ox_c : N := 38084007148811155643940639048210616956585478152769804347743606653617435645288.
Example C116_example :
  verify Debug tsig7 tpk4 tpp4 (str "hello") = Ok true /\ verify Debug tsig7 tpk4b tpp4 (str "hello") = Ok false
  /\ node_at 4 7 [1; 2; 1] /\ node_at 4 5 [1; 1; 2] /\ sig_1 tsig7 <> g2_zero /\ pp_h tpp4 <> g1_zero
  /\ sig_val tpp4 [1; 2; 1] (msg_scalar tpp4 (str "hello"))
     = g1_add (sig_val tpp4 [1; 1; 2] (msg_scalar tpp4 (str "other"))) (g1_mul ox_c (pp_h tpp4))
  /\ verify Debug (relabel 5 tsig7) (shifted_key ox_c tsig7 tpk4) tpp4 (str "other") = Ok true
  /\ verify Debug (relabel 5 tsig7) (shifted_key (ox_c + 1) tsig7 tpk4) tpp4 (str "other") = Ok false.
Proof.
  split; [vm_cast_no_check (eq_refl (@Ok bool true))|]. split; [vm_cast_no_check (eq_refl (@Ok bool false))|].
  split; [split; [discriminate|reflexivity]|]. split; [split; [discriminate|reflexivity]|].
  split; [intros H; apply (f_equal zv) in H; discriminate H|]. split; [intros H; apply (f_equal zv) in H; discriminate H|].
  split; [vm_cast_no_check (@eq_refl (G1 toy) (sig_val tpp4 [1; 2; 1] (msg_scalar tpp4 (str "hello"))))|].
  split; [vm_cast_no_check (eq_refl (@Ok bool true))|]. vm_cast_no_check (eq_refl (@Ok bool false)).
Qed.

(** Two key lists with the same sum: one key, and that key with another one and its negative. *)
Definition ox_neg : pubkey toy := PubKey 0 (g2_neg (pk_pk tpk4b)).
Example C116_example_sum :
  key_sum [tpk4] = key_sum [tpk4b; tpk4; ox_neg] /\ Forall (usable tpp4) [tpk4] /\ Forall (usable tpp4) [tpk4b; tpk4; ox_neg]
  /\ verify_aggregated Debug tsig7 [tpk4] tpp4 (str "hello") = Ok true
  /\ verify_aggregated Debug tsig7 [tpk4b; tpk4; ox_neg] tpp4 (str "hello") = Ok true
  /\ verify_aggregated Debug tsig7 [tpk4b; tpk4] tpp4 (str "hello") = Ok false.
Proof.
  split; [vm_cast_no_check (@eq_refl (G2 toy) (key_sum [tpk4]))|].
  split; [repeat constructor; vm_cast_no_check (eq_refl true)|]. split; [repeat constructor; vm_cast_no_check (eq_refl true)|].
  split; [vm_cast_no_check (eq_refl (@Ok bool true))|]. split; [vm_cast_no_check (eq_refl (@Ok bool true))|]. vm_cast_no_check (eq_refl (@Ok bool false)).
Qed.

(** The pair with the identity: accepted at times 1 and 15 for different messages, under an honest key. *)
Definition ox_x : N := Eval vm_compute in 3.
Example C116_example_blank :
  1 <= 15 <= last_time (pp_depth tpp4)
  /\ verify Debug (blank_sig tpp4 ox_x 1) (PubKey 0 (g2_mul ox_x (pp_g2 tpp4))) tpp4 (str "a") = Ok true
  /\ verify Debug (blank_sig tpp4 ox_x 15) (PubKey 0 (g2_mul ox_x (pp_g2 tpp4))) tpp4 (str "b") = Ok true
  /\ verify Debug (blank_sig tpp4 ox_x 16) (PubKey 0 (g2_mul ox_x (pp_g2 tpp4))) tpp4 (str "b") <> Ok true.
Proof.
  split; [vm_compute; split; discriminate|]. split; [vm_cast_no_check (eq_refl (@Ok bool true))|]. split; [vm_cast_no_check (eq_refl (@Ok bool true))|].
  vm_compute; discriminate.
Qed.
