(** Property C102: forging stays as hard as the wBDHI problem if the other signers' secrets are
    not known and every key has an accepted proof of possession, with both hash functions as
    random oracles; without the proofs a forger always wins.  Specification vocabulary:
    SpecPop.v ([with_points], [proved], [pforger], [pplay], [pwins], [pwins_if], [pcoins_ok], [pcoins_any],
    [h_nonzero], [lost_bound], [sim_points], [pisolate], [psolve], [rogue_forger]), SpecRed.v ([challenge_for], [solution]). *)
From Coq Require Import String.
From Verif Require Import Base Env Time SpecTime Prng SpecPrng SubKey SecretKey Keys Sig
  SpecKey SpecUpdate SpecAgg SpecRed SpecMulti SpecRom SpecPop PopProps PopCountProps Toy ToyRun.
Local Open Scope N_scope.

(** C102 *)
Theorem C102_signatures_of_points : forall (E : env) (L : env_laws E) Q,
  (forall msg cs, g1_insub (Q msg cs) = true) -> env_laws (with_points E Q).
Proof. exact with_points_laws. Qed.
Print Assumptions C102_signatures_of_points.
Theorem C102_accepted_proof : forall (E : env) (L : env_laws E) tbl (pts : list (G1 E)) k p x,
  Forall (fun a => g1_insub a = true) pts -> pk_pk k = g2_mul x g2_one ->
  (proved tbl pts (k, p) = true <->
   (pk_cs k = 0 \/ pk_cs k = 1) /\ pop_cs p = pk_cs k /\ pop_pop p = g1_mul x (points tbl pts (pop_msg (pk_pk k)) [pk_cs k])).
Proof. exact proved_value. Qed.
Print Assumptions C102_accepted_proof.
Theorem C102_isolated : forall (E : env) (L : env_laws E) m m' (pp : pubparam E) g pk x e rho l (s : signature E) msg,
  pp_ok pp -> pp_g2 pp = g2_one -> pk = PubKey (pp_cs pp) (g2_mul x g2_one) -> g1_insub g = true ->
  (length (pop_input pk :: e) <= length rho)%nat -> Forall (fun a => 0 < a < fr_modulus) rho ->
  Forall (fun kp => In (pop_input (fst kp)) (pop_input pk :: e)) l ->
  forallb (proved (pop_input pk :: e) (sim_points g (pp_h pp) rho)) l = true ->
  In pk (map fst l) -> N.of_nat (length l) < fr_modulus ->
  verify_aggregated m s (map fst l) pp msg = Ok true ->
  verify m' (pisolate pk (pop_input pk :: e) rho l s) pk pp msg = Ok true.
Proof. exact proofs_isolate. Qed.
Print Assumptions C102_isolated.
Theorem C102_forger_solves : forall (E : env) (L : env_laws E) m (g : G1 E) d cs a b adv n q p ws,
  g1_insub g = true -> (1 <= d < 64)%nat -> (1 <= q)%nat ->
  NoDup ws -> Forall (fun z => pcoins_ok d n q p z /\ h_nonzero z /\ pwins m g d cs a adv z) ws ->
  exists tx i zs, 1 <= tx <= last_time d /\ (i < q)%nat
    /\ N.of_nat (length ws) <= last_time d * N.of_nat q * N.of_nat (length zs) /\ NoDup zs
    /\ Forall (fun z => pcoins_ok d n q p z /\ psolve (challenge_for g d a b) d cs tx i adv z = Some (solution g d a b)) zs.
Proof. exact pop_forger_solves. Qed.
Print Assumptions C102_forger_solves.
Theorem C102_all_coins : forall (E : env) (L : env_laws E) m (g : G1 E) d cs a b adv n q p ws,
  g1_insub g = true -> (1 <= d < 64)%nat -> (1 <= q)%nat ->
  NoDup ws -> Forall (fun z => pcoins_any d n q p z /\ pwins m g d cs a adv z) ws ->
  exists tx i zs, 1 <= tx <= last_time d /\ (i < q)%nat
    /\ N.of_nat (length ws) <= last_time d * N.of_nat q * N.of_nat (length zs) + lost_bound d n q p /\ NoDup zs
    /\ Forall (fun z => pcoins_ok d n q p z /\ psolve (challenge_for g d a b) d cs tx i adv z = Some (solution g d a b)) zs.
Proof. exact pop_all_coins. Qed.
Print Assumptions C102_all_coins.
Theorem C102_lost_rare : forall d n q p, exists all : list pcoins,
  NoDup all /\ (forall z, In z all <-> pcoins_any d n q p z)
  /\ lost_bound d n q p * fr_modulus <= N.of_nat (q * (q - 1) + p + 1) * N.of_nat (length all).
Proof. exact lost_rare. Qed.
Print Assumptions C102_lost_rare.
Theorem C102_without_proofs_refuted : forall (E : env) (L : env_laws E) m (g : G1 E) d cs x y tx k msg n q p z,
  g1_insub g = true -> (1 <= d < 64)%nat -> (cs = 0 \/ cs = 1) -> 1 <= tx <= last_time d -> (1 <= q)%nat -> (2 <= p)%nat ->
  pcoins_ok d n q p z ->
  pwins_if false m g d cs x (rogue_forger y tx k msg) z.
Proof. exact rogue_wins. Qed.
Print Assumptions C102_without_proofs_refuted.
(** A forger against depth 3: it asks for the sub key of time stamp 5, for a signature at time
    stamp 3 on "n", for the point of the key with the secret 4 (so that it can make the proof),
    for the hash value of "m", and ends with an aggregate on "m" for time stamp 3 in which
    the signer under attack (secret 7) occurs twice. *)
Definition pf_g : G1 toy := mk r1 3.
Definition pf_k4 : pubkey toy := Eval vm_compute in PubKey 0 (g2_mul 4 g2_one).
Definition pf_pk : pubkey toy := Eval vm_compute in PubKey 0 (g2_mul 7 g2_one).
Definition pf_adv : pforger_for toy := fun pp pk pop =>
  PAskKey 5 (fun k => PAskSig 3 (str "n") (fun s =>
    PAskPoint (pop_msg (pk_pk pf_k4)) [0] (fun a => PAskHash (hash_input 0 (str "m")) (fun h =>
      PForge (str "m") (honest_sig pp 18 3 (path_of 3 3) (scalar_of h) 11)
        [(pf_k4, Pop 0 (g1_mul 4 a)); (pk, pop); (pk, pop)])))).
Definition pf_hash (k : N) : bytes := repeat 0 62 ++ [k; 9].
Definition pf_hs : list bytes := [pf_hash 1; pf_hash 2; pf_hash 3].
Definition pf_z : pcoins := (1000, [1; 2; 3; 4], [20; 30], pf_hs, [21; 22; 23]).
Definition pf_sol : GT toy := Eval vm_compute in solution pf_g 3 7 9.
Definition pf_pp : pubparam toy := Eval vm_compute in exp_params pf_g 3 0 1000 [1; 2; 3; 4].
Definition pf_s : signature toy := Eval vm_compute in honest_sig pf_pp 18 3 (path_of 3 3) (scalar_of (pf_hash 2)) 11.
Definition pf_pts : list (G1 toy) := Eval vm_compute in map (fun e => g1_mul e pf_g) [21; 22; 23].
Definition pf_pop4 : proof toy := Eval vm_compute in Pop 0 (g1_mul 4 (nth 1 pf_pts g1_zero)).
Definition pf_pop : proof toy := Eval vm_compute in Pop 0 (g1_mul 7 (nth 0 pf_pts g1_zero)).
Definition pf_l : list (pubkey toy * proof toy) := [(pf_k4, pf_pop4); (pf_pk, pf_pop); (pf_pk, pf_pop)].
Definition pf_tbl : list bytes := Eval vm_compute in [hash_input 0 (str "n"); hash_input 0 (str "m")].
Definition pf_ptbl : list bytes := Eval vm_compute in [pop_input pf_pk; pop_input pf_k4].
Example C102_example :
  pcoins_ok 3 2 3 3 pf_z /\ h_nonzero pf_z
  /\ pwins Debug pf_g 3 0 7 pf_adv pf_z
  /\ solution pf_g 3 7 9 = pf_sol
  /\ psolve (challenge_for pf_g 3 7 9) 3 0 3 1 pf_adv (5, [1; 2; 3; 4], [20; 30], pf_hs, [21; 8; 9]) = Some pf_sol.
Proof.
  split.
  { unfold pcoins_ok, hcoins_ok. cbn [fst snd pf_z]. split.
    - split; [cbn; unfold scalars; split; [reflexivity|split; (split; [reflexivity|]); repeat constructor]|].
      split; [reflexivity|]. split.
      + repeat (constructor; [split; [reflexivity|repeat constructor]|]). constructor.
      + change (NoDup [265; 521; 777]). repeat (constructor; [cbn; intuition discriminate|]). constructor.
    - split; [reflexivity|]. repeat (constructor; [split; reflexivity|]). constructor. }
  split; [discriminate|]. split.
  { exists (str "m"), pf_s, pf_l, pf_tbl, pf_ptbl, [HKey 5; HSig 3 (str "n")].
    split; [vm_cast_no_check (eq_refl (Some (str "m", pf_s, pf_l, pf_tbl, pf_ptbl, [HKey 5; HSig 3 (str "n")])))|].
    split; [right; left; vm_cast_no_check (eq_refl pf_pk)|]. split; [reflexivity|]. split; [vm_cast_no_check (eq_refl true)|].
    split; [intros _; vm_cast_no_check (eq_refl true)|]. vm_cast_no_check (eq_refl (@Ok bool true)). }
  split; [vm_cast_no_check (eq_refl pf_sol)|vm_cast_no_check (eq_refl (Some pf_sol))].
Qed.
(** The proofs stop the rogue key there: the signature is accepted, the proof is not. *)
Definition pf_rogue : pubkey toy := Eval vm_compute in rogue pf_pp 4 [pf_pk].
Example C102_example_rogue :
  proved [pop_input pf_pk; pop_input pf_rogue] pf_pts (pf_rogue, pf_pop) = false
  /\ proved [pop_input pf_pk; pop_input pf_rogue] pf_pts (pf_pk, pf_pop) = true
  /\ N.leb 1 (lost_bound 3 2 1 0) = true.
Proof.
  split; [vm_cast_no_check (eq_refl false)|]. split; [vm_cast_no_check (eq_refl true)|vm_cast_no_check (eq_refl true)].
Qed.
