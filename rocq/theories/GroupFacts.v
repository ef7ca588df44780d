(** Consequences of [env_laws]. *)
From Verif Require Import Base Env NMod.
From Coq Require Import ZifyBool ZifyNat ZifyN.
Local Open Scope N_scope.

Lemma nmod_g1 {E} (L : env_laws E) : nmod (@g1_zero E) g1_add g1_mul.
Proof. constructor; apply L. Qed.
Lemma nmod_g2 {E} (L : env_laws E) : nmod (@g2_zero E) g2_add g2_mul.
Proof. constructor; apply L. Qed.

Ltac g1_solve L := match type of L with env_laws ?E =>
  nmod_solve_with (nmod_g1 L) (@g1_zero E) (@g1_add E) (@g1_mul E) end.
Ltac g2_solve L := match type of L with env_laws ?E =>
  nmod_solve_with (nmod_g2 L) (@g2_zero E) (@g2_add E) (@g2_mul E) end.

Lemma g1_dbl_mul {E} (L : env_laws E) (x : G1 E) : g1_dbl x = g1_mul 2 x.
Proof. rewrite (l1_dbl E L). g1_solve L. Qed.

Lemma g1_mul_insub {E} (L : env_laws E) n (x : G1 E) : g1_insub x = true -> g1_insub (g1_mul n x) = true.
Proof.
  intros H. induction n using N.peano_ind.
  - rewrite (l1_mul0 E L). apply (l1_sub0 E L).
  - rewrite <- N.add_1_l, (l1_mul_add E L), (l1_mul1 E L). apply (l1_sub_add E L); assumption.
Qed.
Lemma g2_mul_insub {E} (L : env_laws E) n (x : G2 E) : g2_insub x = true -> g2_insub (g2_mul n x) = true.
Proof.
  intros H. induction n using N.peano_ind.
  - rewrite (l2_mul0 E L). apply (l2_sub0 E L).
  - rewrite <- N.add_1_l, (l2_mul_add E L), (l2_mul1 E L). apply (l2_sub_add E L); assumption.
Qed.

(** Negation in the subgroup of PixelG1. *)
Definition g1_opp {E : env} (x : G1 E) : G1 E := g1_mul (fr_modulus - 1) x.
Lemma g1_opp_r {E} (L : env_laws E) (x : G1 E) : g1_insub x = true -> g1_add x (g1_opp x) = g1_zero.
Proof.
  intros H. unfold g1_opp. rewrite <- (l1_order E L x H).
  rewrite <- (l1_mul1 E L x) at 1. rewrite <- (l1_mul_add E L). reflexivity.
Qed.
Lemma g1_cancel {E} (L : env_laws E) (x y z : G1 E) :
  g1_insub x = true -> g1_add x y = g1_add x z -> y = z.
Proof.
  intros Hx H. apply (f_equal (g1_add (g1_opp x))) in H.
  rewrite !(l1_assoc E L) in H. rewrite (l1_comm E L (g1_opp x) x), (g1_opp_r L x Hx), !(l1_zero E L) in H.
  exact H.
Qed.
Lemma g2_cancel {E} (L : env_laws E) (x y z : G2 E) : g2_add x y = g2_add x z -> y = z.
Proof.
  intros H. apply (f_equal (g2_add (g2_neg x))) in H.
  rewrite !(l2_assoc E L) in H. rewrite (l2_comm E L (g2_neg x) x), (l2_neg E L x), !(l2_zero E L) in H.
  exact H.
Qed.

(** * GT *)
Lemma gt_one_r {E} (L : env_laws E) (x : GT E) : gt_mul x gt_one = x.
Proof. rewrite (lt_comm E L). apply (lt_one E L). Qed.

Lemma pairing_0_l {E} (L : env_laws E) (y : G1 E) : g1_insub y = true -> pairing g2_zero y = gt_one.
Proof.
  intros Hy. destruct (lt_inv E L g2_zero y (l2_sub0 E L) Hy) as [z Hz].
  assert (H : pairing (g2_add (@g2_zero E) g2_zero) y = gt_mul (pairing g2_zero y) (pairing g2_zero y))
    by (apply (lp_add_l E L); auto using (l2_sub0 E L)).
  rewrite (l2_zero E L) in H. rewrite <- Hz. rewrite H at 2.
  rewrite <- (lt_assoc E L), Hz. symmetry. apply (gt_one_r L).
Qed.
Lemma pairing_0_r {E} (L : env_laws E) (x : G2 E) : g2_insub x = true -> pairing x g1_zero = gt_one.
Proof.
  intros Hx. destruct (lt_inv E L x g1_zero Hx (l1_sub0 E L)) as [z Hz].
  assert (H : pairing x (g1_add (@g1_zero E) g1_zero) = gt_mul (pairing x g1_zero) (pairing x g1_zero))
    by (apply (lp_add_r E L); auto using (l1_sub0 E L)).
  rewrite (l1_zero E L) in H. rewrite <- Hz. rewrite H at 2.
  rewrite <- (lt_assoc E L), Hz. symmetry. apply (gt_one_r L).
Qed.

Lemma pairing_mul_swap {E} (L : env_laws E) n (x : G2 E) (y : G1 E) :
  g2_insub x = true -> g1_insub y = true -> pairing (g2_mul n x) y = pairing x (g1_mul n y).
Proof.
  intros Hx Hy. induction n using N.peano_ind.
  - rewrite (l1_mul0 E L), (l2_mul0 E L), (pairing_0_l L), (pairing_0_r L); auto.
  - rewrite <- N.add_1_l, (l1_mul_add E L), (l2_mul_add E L), (l1_mul1 E L), (l2_mul1 E L).
    rewrite (lp_add_l E L), (lp_add_r E L), IHn; auto using (g1_mul_insub L), (g2_mul_insub L).
Qed.

Lemma pairing_neg_l {E} (L : env_laws E) (x : G2 E) (y : G1 E) :
  g2_insub x = true -> g1_insub y = true ->
  gt_mul (pairing x y) (pairing (g2_neg x) y) = gt_one.
Proof.
  intros Hx Hy. rewrite <- (lp_add_l E L); auto using (l2_sub_neg E L).
  rewrite (l2_neg E L). apply (pairing_0_l L y Hy).
Qed.

Lemma gt_cancel {E} (L : env_laws E) (x : G2 E) (y : G1 E) (a b : GT E) :
  g2_insub x = true -> g1_insub y = true ->
  gt_mul (pairing x y) a = gt_mul (pairing x y) b -> a = b.
Proof.
  intros Hx Hy H. destruct (lt_inv E L x y Hx Hy) as [z Hz].
  apply (f_equal (gt_mul z)) in H. rewrite !(lt_assoc E L) in H.
  rewrite (lt_comm E L z) in H. rewrite Hz, !(lt_one E L) in H. exact H.
Qed.

(** e(x,y) = e(x,z) for x <> 0 gives y = z. *)
Lemma pairing_inj_r {E} (L : env_laws E) (x : G2 E) (y z : G1 E) :
  g2_insub x = true -> g1_insub y = true -> g1_insub z = true -> x <> g2_zero ->
  pairing x y = pairing x z -> y = z.
Proof.
  intros Hx Hy Hz Hnz H.
  assert (Ho : g1_insub (g1_opp z) = true) by (apply (g1_mul_insub L); exact Hz).
  assert (H1 : pairing x (g1_add y (g1_opp z)) = gt_one).
  { rewrite (lp_add_r E L), H, <- (lp_add_r E L), (g1_opp_r L), (pairing_0_r L); auto. }
  apply (lp_nondeg E L) in H1; auto using (l1_sub_add E L).
  destruct H1 as [H1|H1]; [contradiction|].
  apply (g1_cancel L (g1_opp z)); [exact Ho|].
  rewrite (l1_comm E L _ y), H1, (l1_comm E L), (g1_opp_r L); auto.
Qed.

(** The three-pairing checks of the crate as an equation. *)
Lemma pairing_check3 {E} (L : env_laws E) (g pk s1 : G2 E) (s2 F h : G1 E) (f : list (G2 E * G1 E) -> bool) :
  (forall l, f l = match pairing_prod l with None => false | Some x => gt_eqb x gt_one end) ->
  g2_insub g = true -> g2_insub pk = true -> g2_insub s1 = true ->
  g1_insub s2 = true -> g1_insub F = true -> g1_insub h = true ->
  (f [(g2_neg g, s2); (s1, F); (pk, h)] = true <->
   pairing g s2 = gt_mul (pairing s1 F) (pairing pk h)).
Proof.
  intros Hf Hg Hpk Hs1 Hs2 HF Hh. rewrite Hf, (lp_prod E L).
  2:{ repeat constructor; cbn [fst snd]; auto using (l2_sub_neg E L). }
  rewrite (lt_eqb E L). unfold gt_prod. cbn [fold_right fst snd]. rewrite (gt_one_r L).
  split; intros H.
  - apply (f_equal (gt_mul (pairing g s2))) in H. rewrite (lt_assoc E L) in H.
    rewrite (pairing_neg_l L g s2 Hg Hs2), (lt_one E L), (gt_one_r L) in H. symmetry. exact H.
  - rewrite <- H, (lt_comm E L). apply (pairing_neg_l L g s2 Hg Hs2).
Qed.

(** The honest relation: e(g, x*h + s*F) = e(s*g, F) * e(x*g, h). *)
Lemma pairing_honest {E} (L : env_laws E) (g : G2 E) (F h : G1 E) x s :
  g2_insub g = true -> g1_insub F = true -> g1_insub h = true ->
  pairing g (g1_add (g1_mul x h) (g1_mul s F))
  = gt_mul (pairing (g2_mul s g) F) (pairing (g2_mul x g) h).
Proof.
  intros Hg HF Hh. rewrite (lp_add_r E L); auto using (g1_mul_insub L).
  rewrite !(pairing_mul_swap L); auto. apply (lt_comm E L).
Qed.
