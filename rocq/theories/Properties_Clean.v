(** Property C104: the game of C103 over all coins.  In C103 only those coins count for which the
    values drawn make up a hash function.  Here all others count as won by the forger, and it is
    shown how few they are.  Specification vocabulary: SpecClean.v ([fcoins_any],
    [fcount], [fwins_or], [scalars_lost], [clean_lost]), SpecFwd.v ([sampled], [clean], [scoins_ok], [fsolve]). *)
From Coq Require Import String.
From Verif Require Import Base Env Time SpecTime Prng SpecPrng SubKey SecretKey Keys Sig
  SpecKey SpecUpdate SpecAgg SpecRed SpecMulti SpecRom SpecPop SpecFwd SpecClean FwdMainProps CleanMainProps Toy ToyRun Properties_Fwd WitFwdProps.
Local Open Scope N_scope.

(** C104 *)
Theorem C104_unclean_few : forall (E : env) (g : G1 E) d cs tb bx adv n nb nk nu ls q p ws,
  NoDup ws -> Forall (fun z => fcoins_any d n nb nk nu ls q p z /\ exists o, sampled g d cs tb bx adv z = Some o /\ ~ clean z o) ws ->
  N.of_nat (length ws) <= clean_lost d n nb nk nu ls q p.
Proof. exact unclean_few. Qed.
Print Assumptions C104_unclean_few.
Theorem C104_all_coins : forall (E : env) (L : env_laws E) m (g : G1 E) d cs tb bx b adv n nb nk nu ls q p ws,
  g1_insub g = true -> (1 <= d < 64)%nat -> (cs = 0 \/ cs = 1) -> (length bx = 64%nat /\ are_bytes bx) -> (32 <= ls)%nat -> (1 <= q)%nat ->
  NoDup ws -> Forall (fun z => fcoins_any d n nb nk nu ls q p z /\ fwins_or m g d cs tb bx adv z) ws ->
  exists tx i zs, 1 <= tx <= last_time d /\ (i < q)%nat
    /\ N.of_nat (length ws) <= last_time d * N.of_nat q * N.of_nat (length zs) + (scalars_lost d n nb nk nu ls q p + clean_lost d n nb nk nu ls q p)
    /\ NoDup zs
    /\ Forall (fun z => scoins_ok d n nb nk nu ls q p z
                        /\ fsolve (challenge_for g d (scalar_of bx) b) d cs tx i tb adv z = Some (solution g d (scalar_of bx) b)) zs.
Proof. exact clean_all_coins. Qed.
Print Assumptions C104_all_coins.
Theorem C104_few_lost : forall d n nb nk nu ls q p, (1 <= nu)%nat -> (32 <= ls)%nat ->
  exists all : list fcoins, NoDup all /\ (forall z, In z all <-> fcoins_any d n nb nk nu ls q p z)
  /\ scalars_lost d n nb nk nu ls q p * fr_modulus <= N.of_nat (q * (q - 1) + p + 1) * N.of_nat (length all)
  /\ clean_lost d n nb nk nu ls q p * 256 ^ 22 <= N.of_nat (nk * (nk + q + 2) + nu * nu + 2 * q) * N.of_nat (length all).
Proof. exact few_lost. Qed.
Print Assumptions C104_few_lost.
(** The coins of C103 are among these, and they win. *)
Example C104_example : fcoins_any 3 5 1 7 15 32 3 3 fx_z /\ fwins_or Debug fx_g 3 0 3 fx_bx fx_adv fx_z.
Proof. split; [apply ok_any; exact (proj1 C103_example)|apply wins_or; exact (proj1 (proj2 C103_example))]. Qed.
(** With the same state of the prng drawn twice they are not clean: these count as won here. *)
Definition cx_ks : list bytes := map (fun i => fx_block i 3) [1; 2; 3; 4; 5; 6; 1].
Definition cx_z : fcoins := (1000, [1; 2; 3; 4], fx_hs, [21; 22; 23], (repeat 8 32, fx_A, fx_B, cx_ks, fx_us)).
Definition cx_o : outcome toy := Eval vm_compute in
  match sampled fx_g 3 0 3 fx_bx fx_adv cx_z with Some o => o | None => Outcome [] (Signature 0 0 g2_zero g1_zero) [] [] [] [] [] [] end.
Example C104_example_unclean :
  fcoins_any 3 5 1 7 15 32 3 3 cx_z /\ (exists o, sampled fx_g 3 0 3 fx_bx fx_adv cx_z = Some o /\ ~ clean cx_z o)
  /\ fwins_or Debug fx_g 3 0 3 fx_bx fx_adv cx_z.
Proof.
  assert (R : sampled fx_g 3 0 3 fx_bx fx_adv cx_z = Some cx_o) by (vm_cast_no_check (eq_refl (Some cx_o))).
  assert (C : ~ clean cx_z cx_o).
  { intros (_ & _ & H). inversion H as [|? ? H1 _]. apply H1. do 5 right. left. reflexivity. }
  split; [|split; [exists cx_o; split; [exact R|exact C]|exists cx_o; split; [exact R|intros H; destruct (C H)]]].
  pose proof (ok_any _ _ _ _ _ _ _ _ _ (proj1 C103_example)) as (H1 & H2 & H3 & H4 & H5 & H6 & H7 & _ & H9).
  unfold fcoins_any, cx_z. split; [exact H1|]. split; [exact H2|]. split; [exact H3|]. split; [exact H4|]. split; [exact H5|]. split; [exact H6|]. split; [exact H7|]. split; [apply blocksb_ok; reflexivity|exact H9].
Qed.
