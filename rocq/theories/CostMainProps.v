(** Proofs for C106: the program finds what the solver of SpecFwd.v finds, at bounded costs. *)
From Coq Require Import Lia ZifyBool ZifyNat ZifyN.
From Verif Require Import Base Env Time SpecTime Prng SpecPrng SubKey SecretKey Keys Sig Api
  SpecKey SpecUpdate SpecAgg SpecRed SpecMulti SpecRom SpecPop SpecFwd SpecClean SpecIface SpecCost CostProps IfaceProps.
Local Open Scope N_scope.

Lemma program_finds : forall (E : env) (ch : challenge E) d cs tx i tb adv n nb nk nu ls q p s l z,
  (1 <= d < 64)%nat -> scoins_ok d n nb nk nu ls q p z -> (forall pp pk pop, speaks s l (adv pp pk pop)) ->
  program_solves s ch d cs tx i tb adv z = fsolve ch d cs tx i tb adv z
  /\ program_costs s ch d cs tx i tb adv z <= cost_bound d p s l.
Proof.
  intros E ch d cs tx i tb adv n nb nk nu ls q p s l [[[[[co_h co_hs] rs] hs] rho] [[seed [[B ks] us]] ds]] Hd Hz Hadv.
  destruct Hz as [[[Hcoins _] [Hrl Hrho]] _]. destruct Hcoins as (Hco & [Hcl Hcs] & [_ Hrs]). cbn [fst snd] in *.
  assert (Hrho' : Forall (fun a => a < fr_modulus) rho) by (revert Hrho; apply Forall_impl; cbn; lia).
  assert (H : plays (solver s (named ch) d cs tx i tb (co_h, co_hs, rs, hs, rho, (seed, (B, ks, us), ds))) (WStart adv)
                (fsolve ch d cs tx i tb adv (co_h, co_hs, rs, hs, rho, (seed, (B, ks, us), ds)))
                ((5 * d + p + 12) + s * step_cost d (s + 1) + end_cost (s + 1) l)).
  { unfold solver, named.
    eapply plays_le; [do 3 (eapply one_play with (c0 := 1); [reflexivity|unfold unit_cost; lia|])|].
    { eapply plays_bind; [exact (params_runs ch d cs tx i co_h co_hs hs Hd Hco Hcl Hcs)|]. eapply plays_bind; [exact (points_runs ch d co_h co_hs rho Hd Hco Hcl Hrho' _)|].
      eapply plays_bind; [apply runs_mul1, below_small; pose proof (nth_below rho 0 Hrho'); lia|].
      eapply one_play with (c0 := 1); [reflexivity|unfold unit_cost; lia|]. apply plays_tell. cbn [hears fst snd].
      match goal with |- plays (m_loop _ _ _ _ _ _ _ _ _ _ _ _ _ _ _ _ _ _ _ _ ?st (says (WFirst ?f))) _ ?r _ =>
        refine (loop_plays ch d cs tx i tb co_h co_hs hs rho Hd Hco Hcl Hcs (s + 1) l s st f _ _ _) end.
      - apply Hadv.
      - cbn [s_ptbl length]. lia.
      - exact Hrs. }
    rewrite Hrl. lia. }
  destruct H as (w' & c & R & Hc).
  split; [exact (f_equal (fun r => fst (fst r)) R)|].
  eapply N.le_trans; [apply N.eq_le_incl; exact (f_equal snd R)|]. eapply N.le_trans; [exact Hc|].
  unfold cost_bound, unit_cost, step_cost, end_cost. lia.
Qed.

Lemma pspeaks_more (E : env) l n : forall k (f : pforger E), (n <= k)%nat -> pspeaks n l f -> pspeaks k l f.
Proof.
  induction n as [|n IH]; intros k f Hk Hs; [destruct Hs|]. destruct k as [|k]; [lia|].
  destruct f; cbn [pspeaks] in *; try exact Hs; intros x; apply IH; auto; lia.
Qed.
Lemma speaks_more (E : env) l n : forall k (f : aforger E), (n <= k)%nat -> speaks n l f -> speaks k l f.
Proof.
  induction n as [|n IH]; intros k f Hk Hs; [destruct Hs|]. destruct k as [|k]; [lia|].
  destruct f; cbn [speaks] in *; try exact Hs; intros x; try (apply IH; auto; lia). apply (pspeaks_more E l n); auto; lia.
Qed.
Lemma two_speak (E : env) d l n : forall cur (f : iforger E), ispeaks n l f -> speaks (2 * n) l (by_two d cur f).
Proof.
  induction n as [|n IH]; intros cur f Hs; [destruct Hs|].
  replace (2 * S n)%nat with (S (S (2 * n))) by lia.
  assert (M1 : forall g : aforger E, speaks (2 * n) l g -> speaks (S (2 * n)) l g) by (intros g; apply speaks_more; lia).
  assert (M2 : forall g : aforger E, speaks (2 * n) l g -> speaks (S (S (2 * n))) l g) by (intros g; apply speaks_more; lia).
  destruct f as [msg s ks|k|o k|b k|msg c k]; cbn [ispeaks] in Hs; cbn [by_two].
  - exact Hs.
  - intros sk. apply (pspeaks_more E l n); [lia|apply Hs].
  - destruct o as [t seed|t msg seed|t msg|t msg seed|cp].
    + intros r. apply M1, IH, Hs.
    + destruct (t <? cur); [apply M2, IH, Hs|]. destruct (cur <? t).
      * intros [u|e|pn]; [|apply M1, IH, Hs..]. intros r. apply IH, Hs.
      * intros r. apply M1, IH, Hs.
    + intros r. apply M1, IH, Hs.
    + destruct (_ || _); [apply M2, IH, Hs|]. intros r r'. apply IH, Hs.
    + apply M2, IH, Hs.
  - intros h. apply M1, IH, Hs.
  - intros q. apply M1, IH, Hs.
Qed.
Lemma program_all_coins : forall (E : env) (L : env_laws E) m (g : G1 E) d cs tb bx b adv n nb nk nu ls q p s l ws,
  g1_insub g = true -> (1 <= d <= 32)%nat -> (cs = 0 \/ cs = 1) -> (length bx = 64%nat /\ are_bytes bx) -> (32 <= ls)%nat -> (1 <= q)%nat ->
  (forall pp pk pop, ispeaks s l (adv pp pk pop)) ->
  NoDup ws -> Forall (fun z => fcoins_any d n nb nk nu ls q p z /\ iwins_or m g d cs tb bx adv z) ws ->
  exists tx i zs, 1 <= tx <= last_time d /\ (i < q)%nat
    /\ N.of_nat (length ws) <= last_time d * N.of_nat q * N.of_nat (length zs) + (scalars_lost d n nb nk nu ls q p + clean_lost d n nb nk nu ls q p)
    /\ NoDup zs
    /\ Forall (fun z => scoins_ok d n nb nk nu ls q p z
                        /\ program_solves (2 * s) (challenge_for g d (scalar_of bx) b) d cs tx i tb (two_calls d adv) z = Some (solution g d (scalar_of bx) b)
                        /\ program_costs (2 * s) (challenge_for g d (scalar_of bx) b) d cs tx i tb (two_calls d adv) z <= cost_bound d p (2 * s) l) zs.
Proof.
  intros E L m g d cs tb bx b adv n nb nk nu ls q p s l ws Hg Hd Hc Hbx Hls Hq Hadv Hw1 Hw2.
  destruct (iface_all_coins E L m g d cs tb bx b adv n nb nk nu ls q p ws Hg Hd Hc Hbx Hls Hq Hw1 Hw2) as (tx & i & zs & H1 & H2 & H3 & H4 & H5).
  exists tx, i, zs. split; [exact H1|]. split; [exact H2|]. split; [exact H3|]. split; [exact H4|].
  revert H5. apply Forall_impl. intros z [Hz Hs]. split; [exact Hz|].
  destruct (program_finds E (challenge_for g d (scalar_of bx) b) d cs tx i tb (two_calls d adv) n nb nk nu ls q p (2 * s) l z ltac:(lia) Hz) as [R1 R2].
  { intros pp pk pop. apply two_speak, Hadv. }
  rewrite R1. split; [exact Hs|exact R2].
Qed.
