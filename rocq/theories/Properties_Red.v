(** Property C93: forging a signature for a time stamp before the break-in is as hard as
    the wBDHI problem.  Specification vocabulary: SpecRed.v ([forger], [play], [real_play],
    [wins]: the game; [challenge_for], [solution]: the problem; [sim_pp], [sim_play],
    [extract], [solve]: the solver; [coins_ok]), SpecKey.v ([pp_ok]), SpecSig.v ([signs]),
    Api.v ([run]). *)
From Coq Require Import String.
From Verif Require Import Base Env Time SpecTime Prng SpecPrng SubKey SecretKey Keys Sig Api
  SpecKey SpecUpdate SpecSig SpecRed HistoryFacts RedProps Toy ToyRun.
Local Open Scope N_scope.

(** C93 *)
Theorem C93_simulation_perfect : forall (E : env) (L : env_laws E) (g : G1 E) d cs a b tx msg adv n,
  g1_insub g = true -> (1 <= d < 64)%nat -> 1 <= tx <= last_time d ->
  exists F G : N * list N * list N -> N * list N * list N,
    (forall z, coins_ok d n z -> coins_ok d n (F z) /\ G (F z) = z)
    /\ (forall z, coins_ok d n z -> coins_ok d n (G z) /\ F (G z) = z)
    /\ forall c cl rs, coins_ok d n (c, cl, rs) ->
       let ch := challenge_for g d a b in
       let mx := @target E cs msg in
       let w := coords d (path_of d tx) mx in
       let '(y, ys, rs') := F (c, cl, rs) in
       sim_pp ch d cs w c cl = exp_params g d cs y ys
       /\ sim_pk ch cs = PubKey cs (g2_mul a g2_one)
       /\ sim_play ch d cs w c cl tx mx rs (adv (sim_pp ch d cs w c cl) (sim_pk ch cs))
          = real_play (exp_params g d cs y ys) a tx mx rs' (adv (exp_params g d cs y ys) (PubKey cs (g2_mul a g2_one))).
Proof. exact simulation_perfect. Qed.
Print Assumptions C93_simulation_perfect.

Theorem C93_forgery_solves : forall (E : env) (L : env_laws E) m (g : G1 E) d cs a b tx msg c cl s,
  g1_insub g = true -> (1 <= d < 64)%nat -> 1 <= tx <= last_time d -> scalars (d + 1) cl ->
  let ch := challenge_for g d a b in
  let w := coords d (path_of d tx) (@target E cs msg) in
  verify m s (sim_pk ch cs) (sim_pp ch d cs w c cl) msg = Ok true -> sig_time s = tx ->
  extract ch w c cl s = solution g d a b.
Proof. exact forgery_solves. Qed.
Print Assumptions C93_forgery_solves.

Theorem C93_forger_solves : forall (E : env) (L : env_laws E) m (g : G1 E) d cs a b tx msg adv n ws,
  g1_insub g = true -> (1 <= d < 64)%nat -> 1 <= tx <= last_time d ->
  NoDup ws -> Forall (fun z => coins_ok d n z /\ wins m g d cs a tx msg adv z) ws ->
  exists zs, length zs = length ws /\ NoDup zs
    /\ Forall (fun z => coins_ok d n z /\ solve (challenge_for g d a b) d cs tx msg adv z = Some (solution g d a b)) zs.
Proof. exact forger_solves. Qed.
Print Assumptions C93_forger_solves.

Theorem C93_interface_answers : forall (E : env) (L : env_laws E) m (pp : pubparam E) seed pk sk pop ops tx mx,
  pp_ok pp -> key_gen seed pp = Ok (pk, sk, pop) -> 1 <= tx ->
  exists x, x < fr_modulus /\ pk = PubKey (pp_cs pp) (g2_mul x (pp_g2 pp))
    /\ (tx < sec_time (snd (run m pp ops sk)) ->
        Forall (fun s => exists k, k < fr_modulus /\ real_key pp x tx (sk_t s) k = Some s) (sec_ssk (snd (run m pp ops sk))))
    /\ Forall2 (fun o a => match a with
                           | Ok (Some s) => exists t msg, signs o = Some (t, msg)
                               /\ (t = tx /\ msg_scalar pp msg = mx
                                   \/ exists k, k < fr_modulus /\ real_sig pp x tx mx t msg k = Some s)
                           | _ => True
                           end) ops (fst (run m pp ops sk)).
Proof. exact api_view. Qed.
Print Assumptions C93_interface_answers.

(** A forger against depth 3, time stamp 3 (node [1;1]) and message "m": it asks for the sub
    key of time stamp 5 (node [2]), for a signature for time stamp 2 (above 3), and forges
    with the master secret 7, which it happens to know.  The solver does not use it. *)
Definition rd_g : G1 toy := mk r1 3.
Definition rd_forge (t : N) (pp : pubparam toy) : signature toy :=
  honest_sig pp 7 t (path_of 3 t) (msg_scalar pp (str "m")) 11.
Definition rd_adv (t : N) (pp : pubparam toy) (pk : pubkey toy) : forger toy :=
  AskKey 5 (fun k => AskSig 2 (str "n") (fun s =>
    if g1_eqb (sk_hpoly k) (sig_2 s) then AskKey 3 (fun _ => Forge s) else Forge (rd_forge t pp))).
Definition rd_z : N * list N * list N := (5, [1; 2; 3; 4], [20; 30]).
Definition rd_sol : GT toy := Eval vm_compute in solution rd_g 3 7 9.
Example C93_example :
  coins_ok 3 2 rd_z
  /\ solve (challenge_for rd_g 3 7 9) 3 0 3 (str "m") (rd_adv 3) rd_z = Some rd_sol
  /\ solution rd_g 3 7 9 = rd_sol
  /\ option_map (fun a => zeqb a rd_sol) (solve (challenge_for rd_g 3 7 9) 3 0 3 (str "m") (rd_adv 4) rd_z) = Some false
  /\ solve (challenge_for rd_g 3 7 9) 3 0 5 (str "m") (rd_adv 5) rd_z = None.
Proof.
  split.
  { cbn. unfold scalars. split; [reflexivity|]. split; (split; [reflexivity|]); repeat constructor. }
  split; [vm_cast_no_check (eq_refl (Some rd_sol))|]. split; [vm_cast_no_check (eq_refl rd_sol)|].
  split; [vm_cast_no_check (eq_refl (Some false))|vm_cast_no_check (eq_refl (@None (GT toy)))].
Qed.
(** The same forger wins the game. *)
Definition rd_pp : pubparam toy := Eval vm_compute in exp_params rd_g 3 0 1000 [1; 2; 3; 4].
Definition rd_pk : pubkey toy := Eval vm_compute in PubKey 0 (g2_mul 7 g2_one).
Definition rd_s : signature toy := Eval vm_compute in rd_forge 3 rd_pp.
Example C93_example_wins : wins Debug rd_g 3 0 7 3 (str "m") (rd_adv 3) (1000, [1; 2; 3; 4], [20; 30]).
Proof.
  exists rd_s. split; [vm_cast_no_check (eq_refl (Some rd_s))|]. split; [reflexivity|].
  vm_cast_no_check (eq_refl (@Ok bool true)).
Qed.
