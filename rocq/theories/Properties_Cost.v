(** Property C106: the solver of the forward security game is a program that computes with the
    points through the operations of the groups only, in a bounded number of steps.  Specification
    vocabulary: SpecCost.v ([prog], [run], [solver], [program_solves], [program_costs], [speaks], [ispeaks], [cost_bound]),
    SpecFwd.v ([scoins_ok], [fsolve]), SpecClean.v ([fcoins_any], [scalars_lost], [clean_lost]), SpecIface.v ([iforger], [two_calls], [iwins_or]). *)
From Coq Require Import String.
From Verif Require Import Base Env Time SpecTime Prng SpecPrng SubKey SecretKey Keys Sig Api
  SpecKey SpecUpdate SpecAgg SpecRed SpecMulti SpecRom SpecPop SpecFwd SpecClean SpecIface SpecCost CostMainProps
  Toy ToyRun Properties_Fwd Properties_Iface WitFwdProps.
Local Open Scope N_scope.

(** C106 *)
Theorem C106_program_finds : forall (E : env) (ch : challenge E) d cs tx i tb adv n nb nk nu ls q p s l z,
  (1 <= d < 64)%nat -> scoins_ok d n nb nk nu ls q p z -> (forall pp pk pop, speaks s l (adv pp pk pop)) ->
  program_solves s ch d cs tx i tb adv z = fsolve ch d cs tx i tb adv z
  /\ program_costs s ch d cs tx i tb adv z <= cost_bound d p s l.
Proof. exact program_finds. Qed.
Print Assumptions C106_program_finds.
Theorem C106_all_coins : forall (E : env) (L : env_laws E) m (g : G1 E) d cs tb bx b adv n nb nk nu ls q p s l ws,
  g1_insub g = true -> (1 <= d <= 32)%nat -> (cs = 0 \/ cs = 1) -> (length bx = 64%nat /\ are_bytes bx) -> (32 <= ls)%nat -> (1 <= q)%nat ->
  (forall pp pk pop, ispeaks s l (adv pp pk pop)) ->
  NoDup ws -> Forall (fun z => fcoins_any d n nb nk nu ls q p z /\ iwins_or m g d cs tb bx adv z) ws ->
  exists tx i zs, 1 <= tx <= last_time d /\ (i < q)%nat
    /\ N.of_nat (length ws) <= last_time d * N.of_nat q * N.of_nat (length zs) + (scalars_lost d n nb nk nu ls q p + clean_lost d n nb nk nu ls q p)
    /\ NoDup zs
    /\ Forall (fun z => scoins_ok d n nb nk nu ls q p z
                        /\ program_solves (2 * s) (challenge_for g d (scalar_of bx) b) d cs tx i tb (two_calls d adv) z = Some (solution g d (scalar_of bx) b)
                        /\ program_costs (2 * s) (challenge_for g d (scalar_of bx) b) d cs tx i tb (two_calls d adv) z <= cost_bound d p (2 * s) l) zs.
Proof. exact program_all_coins. Qed.
Print Assumptions C106_all_coins.
(** The forger of the example of C103 speaks 9 times and ends with 2 keys.  The program finds the solution; the points cost 8848. *)
Example C106_example :
  scoins_ok 3 5 1 7 15 32 3 3 fx_s /\ (forall pp pk pop, speaks 9 2 (fx_adv pp pk pop))
  /\ program_solves 9 (challenge_for fx_g 3 (scalar_of fx_bx) 9) 3 0 2 1 3 fx_adv fx_s = Some fx_sol
  /\ program_costs 9 (challenge_for fx_g 3 (scalar_of fx_bx) 9) 3 0 2 1 3 fx_adv fx_s = 8848
  /\ 8848 <= cost_bound 3 3 9 2.
Proof.
  split.
  { unfold scoins_ok, fx_s. split.
    { split; [|split; [reflexivity|repeat (constructor; [split; reflexivity|]); constructor]].
      split; [split; [reflexivity|split; (split; [reflexivity|repeat (constructor; [reflexivity|]); constructor])]|].
      split; [reflexivity|]. split; [exact (proj2 (blocksb_ok 3 fx_hs eq_refl eq_refl))|].
      change (NoDup [265; 521; 777]). repeat (constructor; [cbn; intuition discriminate|]). constructor. }
    split; [split; [reflexivity|cbn [repeat]; repeat (constructor; [reflexivity|]); constructor]|].
    split; [apply blocksb_ok; reflexivity|]. split; [apply blocksb_ok; reflexivity|]. split; [apply blocksb_ok; reflexivity|].
    split; [reflexivity|]. cbn [repeat]. repeat (constructor; [reflexivity|]). constructor. }
  split; [intros pp pk pop; cbn; repeat (intros ? || constructor)|].
  split; [vm_cast_no_check (eq_refl (Some fx_sol))|]. split; [vm_cast_no_check (eq_refl 8848)|]. vm_compute. discriminate.
Qed.
(** The forger of the example of C105. *)
Example C106_example_calls : forall pp pk pop, ispeaks 8 2 (ix_adv pp pk pop).
Proof. intros pp pk pop. cbn. repeat (intros ? || constructor). Qed.
