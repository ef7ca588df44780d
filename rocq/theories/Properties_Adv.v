(** Property C107: forward security as a bound on the probability to win.  Specification vocabulary:
    SpecAdv.v ([gcoins_any], [gwins], [game_count], [kcoins_any], [ksolves], [kcosts], [solver_count], [share],
    [game_at_most], [solver_at_most]), SpecCost.v ([ispeaks], [cost_bound]), SpecClean.v ([scalars_lost], [clean_lost]),
    SpecTime.v ([last_time]). *)
From Coq Require Import QArith.
From Verif Require Import Base Env Time SpecTime Prng SpecPrng SubKey SecretKey Keys Sig Api
  SpecKey SpecUpdate SpecAgg SpecRed SpecMulti SpecRom SpecPop SpecFwd SpecClean AdvProps AdvCountProps
  Toy ToyRun Properties_Fwd Properties_Iface Properties_Cost WitFwdProps SpecIface SpecCost SpecAdv.
Local Open Scope N_scope.

(** C107 *)
Theorem C107_game_solved : forall (E : env) (L : env_laws E) m (g : G1 E) d cs adv n nb nk nu ls q p s l ws,
  g1_insub g = true -> (1 <= d <= 32)%nat -> (cs = 0 \/ cs = 1) -> (32 <= ls)%nat ->
  (forall pp pk pop, ispeaks s l (adv pp pk pop)) ->
  NoDup ws -> Forall (fun w => gcoins_any d n nb nk nu ls q p w /\ gwins m g d cs adv w) ws ->
  exists zs, N.of_nat (length ws) <= N.of_nat (length zs)
      + (scalars_lost d n nb nk nu ls q p + clean_lost d n nb nk nu ls q p) * (256 ^ 64 * fr_modulus * (last_time d + 1))
    /\ NoDup zs
    /\ Forall (fun k => kcoins_any d n nb nk nu ls q p k /\ ksolves s g d cs adv k /\ kcosts s g d cs adv k <= cost_bound d p (2 * s) l) zs.
Proof. exact game_solved. Qed.
Print Assumptions C107_game_solved.
Theorem C107_coins_counted : forall d n nb nk nu ls q p,
  (exists all : list gcoins, NoDup all /\ (forall w, In w all <-> gcoins_any d n nb nk nu ls q p w)
     /\ N.of_nat (length all) = game_count d n nb nk nu ls q p * (last_time d + 1))
  /\ (exists all : list kcoins, NoDup all /\ (forall k, In k all <-> kcoins_any d n nb nk nu ls q p k)
     /\ N.of_nat (length all) = solver_count d n nb nk nu ls q p).
Proof. exact coins_counted. Qed.
Print Assumptions C107_coins_counted.
Theorem C107_advantage : forall (E : env) (L : env_laws E) m (g : G1 E) d cs adv n nb nk nu ls q p s l eps,
  g1_insub g = true -> (1 <= d <= 32)%nat -> (cs = 0 \/ cs = 1) -> (32 <= ls)%nat -> (1 <= nu)%nat -> (1 <= q)%nat -> N.of_nat n <= 2 ^ 255 ->
  (forall pp pk pop, ispeaks s l (adv pp pk pop)) ->
  solver_at_most s (cost_bound d p (2 * s) l) g d cs adv n nb nk nu ls q p eps ->
  game_at_most m g d cs adv n nb nk nu ls q p
    (inject_Z (Z.of_N (2 * (last_time d + 1) * last_time d * N.of_nat q)) * eps
     + inject_Z (Z.of_N (last_time d + 1))
       * (share (N.of_nat (q * (q - 1) + p + 1)) fr_modulus + share (N.of_nat (nk * (nk + q + 2) + nu * nu + 2 * q)) (256 ^ 22)))%Q.
Proof. exact game_advantage. Qed.
Print Assumptions C107_advantage.
Theorem C107_at_most_one : forall (E : env) s c (g : G1 E) d cs adv n nb nk nu ls q p,
  (1 <= d)%nat -> (1 <= q)%nat -> solver_at_most s c g d cs adv n nb nk nu ls q p 1.
Proof. exact solver_at_most_one. Qed.
Print Assumptions C107_at_most_one.
Theorem C107_lost_in_numbers : forall d nk nu q p, (1 <= d <= 32)%nat ->
  N.of_nat nk <= 2 ^ 40 -> N.of_nat nu <= 2 ^ 40 -> N.of_nat q <= 2 ^ 40 -> N.of_nat p <= 2 ^ 40 ->
  (inject_Z (Z.of_N (last_time d + 1))
   * (share (N.of_nat (q * (q - 1) + p + 1)) fr_modulus + share (N.of_nat (nk * (nk + q + 2) + nu * nu + 2 * q)) (256 ^ 22)) <= 1 # (2 ^ 61))%Q.
Proof. exact lost_in_numbers. Qed.
Print Assumptions C107_lost_in_numbers.
(** The forger of the example of C105 wins with these coins, and the program finds the solution with these. *)
Definition ax_w : gcoins := (fx_bx, 9, 3, ix_z).
Definition ax_k : kcoins := (fx_bx, 9, 3, 2, 1%nat, (5, [1; 2; 3; 4], [20; 30; 40; 50; 60; 70; 80; 90], fx_hs, [21; 8; 9], (repeat 8 32, (ix_B, ix_ks, ix_us), repeat 0 8))).
Example C107_example :
  g1_insub (e := toy) fx_g = true /\ gcoins_any 3 8 2 12 24 32 3 3 ax_w /\ gwins Debug fx_g 3 0 ix_adv ax_w
  /\ (forall pp pk pop, ispeaks 8 2 (ix_adv pp pk pop))
  /\ kcoins_any 3 8 2 12 24 32 3 3 ax_k /\ ksolves 8 fx_g 3 0 ix_adv ax_k.
Proof.
  destruct C105_example as (Hz & _ & Hw). split; [reflexivity|].
  assert (Hb : length fx_bx = 64%nat /\ are_bytes fx_bx) by (split; [reflexivity|unfold fx_bx, fx_block; cbn [repeat app]; repeat (constructor; [reflexivity|]); constructor]).
  split; [split; [exact Hb|]; split; [reflexivity|]; split; [vm_compute; discriminate|exact Hz]|]. split; [exact Hw|]. split; [exact C106_example_calls|].
  split.
  - unfold kcoins_any, ax_k. split; [split; [exact Hb|reflexivity]|]. split; [vm_compute; discriminate|]. split; [split; vm_compute; discriminate|]. split; [repeat constructor|].
    split; [split; [reflexivity|]; split; [split; [reflexivity|repeat (constructor; [reflexivity|]); constructor]|]; split; [split; [reflexivity|repeat (constructor; [reflexivity|]); constructor]|];
            split; [apply blocksb_ok; reflexivity|split; [reflexivity|repeat (constructor; [reflexivity|]); constructor]]|].
    split; [split; [reflexivity|cbn [repeat]; repeat (constructor; [reflexivity|]); constructor]|].
    split; [apply blocksb_ok; reflexivity|]. split; [apply blocksb_ok; reflexivity|]. split; [apply blocksb_ok; reflexivity|].
    split; [reflexivity|]. cbn [repeat]. repeat (constructor; [reflexivity|]). constructor.
  - unfold ksolves, ax_k. transitivity (Some fx_sol); [vm_cast_no_check (eq_refl (Some fx_sol))|]. vm_cast_no_check (eq_refl (Some fx_sol)).
Qed.
