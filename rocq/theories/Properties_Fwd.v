(** Property C103: forward security of the code.  A forger that sees what key_gen, update and
    sign_present return, breaks in once and gets the secret key, and then gives an accepted aggregate for
    an earlier time stamp is turned into a solver of the wBDHI problem; the hash functions (also inside
    the prng) are random oracles.  Specification vocabulary: SpecFwd.v ([aforger], [code_run], [awins], [sampled],
    [clean], [fwins], [fcoins_ok], [scoins_ok], [reduced], [fsolve]), SpecPop.v ([points], [psolve]), SpecRed.v ([challenge_for], [solution]). *)
From Coq Require Import String.
From Verif Require Import Base Env Time SpecTime Prng SpecPrng SubKey SecretKey Keys Sig
  SpecKey SpecUpdate SpecAgg SpecRed SpecMulti SpecRom SpecPop SpecFwd FwdMainProps WitFwdProps Toy ToyRun.
Local Open Scope N_scope.

(** C103 *)
Theorem C103_drawn_is_code : forall (E : env) (L : env_laws E) m (g : G1 E) d cs tb bx adv n nb nk nu ls q p y ys hs zs seed A B ks us o,
  g1_insub g = true -> (1 <= d < 64)%nat -> (cs = 0 \/ cs = 1) -> (length bx = 64%nat /\ are_bytes bx) -> (32 <= ls)%nat ->
  fcoins_ok d n nb nk nu ls q p (y, ys, hs, zs, (seed, A, B, ks, us)) ->
  sampled g d cs tb bx adv (y, ys, hs, zs, (seed, A, B, ks, us)) = Some o -> clean (y, ys, hs, zs, (seed, A, B, ks, us)) o ->
  let pp := exp_params g d cs y ys in
  let H := sampled_hash hs (o_tbl o) (o_calls o) in
  let Q := points (o_ptbl o) (map (fun e => g1_mul e g) zs) in
  exists pk sk pop, @key_gen (code_env E H Q) seed (cv_pp pp) = Ok (pk, sk, pop)
    /\ uv_pk pk = PubKey cs (g2_mul (scalar_of bx) g2_one)
    /\ code_run H Q m pp sk (adv pp (uv_pk pk) (uv_pop pop)) = Some (o_msg o, o_sig o, o_list o, o_ev o).
Proof. exact drawn_is_code. Qed.
Print Assumptions C103_drawn_is_code.
Theorem C103_forger_solves : forall (E : env) (L : env_laws E) m (g : G1 E) d cs tb bx b adv n nb nk nu ls q p ws,
  g1_insub g = true -> (1 <= d < 64)%nat -> (cs = 0 \/ cs = 1) -> (length bx = 64%nat /\ are_bytes bx) -> (32 <= ls)%nat -> (1 <= q)%nat ->
  NoDup ws -> Forall (fun z => fcoins_ok d n nb nk nu ls q p z /\ fwins m g d cs tb bx adv z) ws ->
  exists tx i zs, 1 <= tx <= last_time d /\ (i < q)%nat
    /\ N.of_nat (length ws) <= last_time d * N.of_nat q * N.of_nat (length zs) /\ NoDup zs
    /\ Forall (fun z => scoins_ok d n nb nk nu ls q p z
                        /\ fsolve (challenge_for g d (scalar_of bx) b) d cs tx i tb adv z = Some (solution g d (scalar_of bx) b)) zs.
Proof. exact code_forger_solves. Qed.
Print Assumptions C103_forger_solves.
(** A forger against depth 3: it gets a signature on "n" at time stamp 1, has the key updated to
    3, gets a signature on "n" there, an error for time stamp 2, breaks in, and ends with an
    aggregate on "m" for time stamp 2 of the signer under attack (secret 7) and one with the secret 4. *)
Definition fx_g : G1 toy := mk r1 3.
Definition fx_block (i k : N) : bytes := repeat 0 62 ++ [i; k].
Definition fx_bx : bytes := fx_block 0 7.
Definition fx_k4 : pubkey toy := Eval vm_compute in PubKey 0 (g2_mul 4 g2_one).
Definition fx_adv : aforger_for toy := fun pp pk pop =>
  ASign 1 (str "n") (fun _ => AUpdate 3 (repeat 5 32) (fun _ => ASign 3 (str "n") (fun _ => ASign 2 (str "m") (fun _ =>
    AAskPoint (pop_msg (pk_pk fx_k4)) [0] (fun a => ABreak (fun sk => PAskHash (hash_input 0 (str "m")) (fun h =>
      PForge (str "m") (honest_sig pp 11 2 (path_of 3 2) (scalar_of h) 11) [(fx_k4, Pop 0 (g1_mul 4 a)); (pk, pop)]))))))).
Definition fx_hs : list bytes := [fx_block 1 9; fx_block 2 9; fx_block 3 9].
Definition fx_A : list bytes := map (fun i => fx_block i 1) [1; 2; 3; 4; 5].
Definition fx_B : list bytes := [fx_block 1 2].
Definition fx_ks : list bytes := map (fun i => fx_block i 3) [1; 2; 3; 4; 5; 6; 7].
Definition fx_us : list bytes := map (fun i => fx_block i 4) [1; 2; 3; 4; 5; 6; 7; 8; 9; 10; 11; 12; 13; 14; 15].
Definition fx_z : fcoins := (1000, [1; 2; 3; 4], fx_hs, [21; 22; 23], (repeat 8 32, fx_A, fx_B, fx_ks, fx_us)).
Definition fx_o : outcome toy := Eval vm_compute in
  match sampled fx_g 3 0 3 fx_bx fx_adv fx_z with Some o => o | None => Outcome [] (Signature 0 0 g2_zero g1_zero) [] [] [] [] [] [] end.
Local Notation fx_H := (sampled_hash fx_hs (o_tbl fx_o) (o_calls fx_o)).
Local Notation fx_Q := (points (o_ptbl fx_o) (map (fun e => g1_mul e fx_g) [21; 22; 23])).
Definition fx_sol : GT toy := Eval vm_compute in solution fx_g 3 7 9.
Definition fx_s : scoins := (5, [1; 2; 3; 4], [20; 30; 40; 50; 60], fx_hs, [21; 8; 9], (repeat 8 32, (fx_B, fx_ks, fx_us), repeat 0 5)).
Example C103_example_wins : awins fx_H fx_Q Debug (exp_params fx_g 3 0 1000 [1; 2; 3; 4]) (repeat 8 32) 3 fx_adv.
Proof. apply (awinsb_ok toy_laws). vm_cast_no_check (eq_refl true). Qed.
Example C103_example :
  fcoins_ok 3 5 1 7 15 32 3 3 fx_z
  /\ fwins Debug fx_g 3 0 3 fx_bx fx_adv fx_z
  /\ solution fx_g 3 7 9 = fx_sol
  /\ fsolve (challenge_for fx_g 3 (scalar_of fx_bx) 9) 3 0 2 1 3 fx_adv fx_s = Some fx_sol.
Proof.
  split.
  { unfold fcoins_ok, fx_z. split; [split; reflexivity|]. split; [split; [reflexivity|repeat (constructor; [reflexivity|]); constructor]|].
    split; [split; [apply blocksb_ok; reflexivity|change (NoDup [265; 521; 777]); repeat (constructor; [cbn; intuition discriminate|]); constructor]|].
    split; [split; [reflexivity|repeat (constructor; [split; reflexivity|]); constructor]|].
    split; [split; [reflexivity|cbn [repeat]; repeat (constructor; [reflexivity|]); constructor]|].
    split; [apply blocksb_ok; reflexivity|]. split; [apply blocksb_ok; reflexivity|]. split; apply blocksb_ok; reflexivity. }
  split.
  { refine (fwins_intro Debug fx_g 3 0 3 fx_bx fx_adv 1000 [1; 2; 3; 4] fx_hs [21; 22; 23] (repeat 8 32) fx_A fx_B fx_ks fx_us fx_o fx_H fx_Q _ eq_refl eq_refl eq_refl _ _ C103_example_wins).
    - vm_cast_no_check (eq_refl (Some fx_o)).
    - split; [apply nodupb_ok; vm_cast_no_check (eq_refl true)|]. split; [apply apartb_ok; vm_cast_no_check (eq_refl true)|apply nodupb_ok; vm_cast_no_check (eq_refl true)]. }
  split; [vm_cast_no_check (eq_refl fx_sol)|vm_cast_no_check (eq_refl (Some fx_sol))].
Qed.
