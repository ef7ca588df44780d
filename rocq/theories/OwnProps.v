(** Proofs about which public keys accept a signature ([SpecOwn]). *)
From Verif Require Import Base Env GroupFacts Time SpecTime TimeFacts SubKey SecretKey Keys Sig Api SpecKey SubKeyFacts SpecUpdate KeyFacts
  SpecAgg VerProps AggProps SpecOwn.
From Coq Require Import Lia ZifyBool ZifyNat ZifyN.
Local Open Scope N_scope.
Local Opaque fr_modulus.

Lemma gt_cancel_l {E} (L : env_laws E) (x : G2 E) (y : G1 E) a b : g2_insub x = true -> g1_insub y = true ->
  gt_mul (pairing x y) a = gt_mul (pairing x y) b -> a = b.
Proof.
  intros Hx Hy H. destruct (lt_inv E L x y Hx Hy) as [z Hz].
  rewrite <- (lt_one E L a), <- (lt_one E L b), <- Hz, (lt_comm E L (pairing x y) z), <- !(lt_assoc E L), H. reflexivity.
Qed.
Lemma pairing_inj_l {E} (L : env_laws E) (x x' : G2 E) (y : G1 E) : g2_insub x = true -> g2_insub x' = true -> g1_insub y = true ->
  y <> g1_zero -> pairing x y = pairing x' y -> x = x'.
Proof.
  intros Hx Hx' Hy Hnz H.
  assert (H0 : pairing (g2_add x (g2_neg x')) y = gt_one).
  { rewrite (lp_add_l E L), H, <- (lp_add_l E L), (l2_neg E L), (pairing_0_l L); auto using (l2_sub_neg E L). }
  apply (lp_nondeg E L) in H0 as [H0|H0]; [|contradiction|auto using (l2_sub_add E L), (l2_sub_neg E L)|exact Hy].
  rewrite <- (l2_zero E L x), <- (l2_neg E L x'), <- (l2_assoc E L), (l2_comm E L (g2_neg x') x), H0, (l2_comm E L). apply (l2_zero E L).
Qed.

Lemma one_key : forall (E : env) (L : env_laws E) m m' (pp : pubparam E) s pk pk' msg,
  pp_ok pp -> pp_h pp <> g1_zero -> g2_insub (pk_pk pk) = true -> g2_insub (pk_pk pk') = true ->
  verify m s pk pp msg = Ok true -> verify m' s pk' pp msg = Ok true -> pk_pk pk = pk_pk pk'.
Proof.
  intros E L m m' pp s pk pk' msg Hpp Hh Hpk Hpk' H H'.
  apply (verify_equation E L) in H as (_ & _ & H1 & _ & v & Hn & He); auto.
  apply (verify_equation E L) in H' as (_ & _ & _ & _ & v' & Hn' & He'); auto.
  rewrite (node_at_fun _ _ _ _ Hn' Hn), He in He'. apply (gt_cancel_l L) in He'; [|exact H1|apply (sig_val_insub L), Hpp].
  apply (pairing_inj_l L) in He'; auto. apply Hpp.
Qed.

Lemma one_key_sum : forall (E : env) (L : env_laws E) m m' (pp : pubparam E) s pks pks' msg,
  pp_ok pp -> pp_h pp <> g1_zero -> pks <> [] -> pks' <> [] -> Forall (usable pp) pks -> Forall (usable pp) pks' ->
  verify_aggregated m s pks pp msg = Ok true ->
  (verify_aggregated m' s pks' pp msg = Ok true <-> key_sum pks = key_sum pks').
Proof.
  intros E L m m' pp s pks pks' msg Hpp Hh Hne Hne' Hu Hu' H.
  assert (Hsub : forall l, Forall (usable pp) l -> Forall (fun k => g2_insub (pk_pk k) = true) l) by (intros l; apply Forall_impl; intros a [_ Ha]; exact Ha).
  assert (Hcs : forall l, Forall (usable pp) l -> Forall (fun k => pk_cs k = pp_cs pp) l) by (intros l; apply Forall_impl; intros a [Ha _]; exact Ha).
  assert (Hks : forall l, Forall (usable pp) l -> g2_insub (key_sum l) = true).
  { induction l as [|a l IH]; intros Ha; [apply (l2_sub0 E L)|]. cbn [key_sum fold_right]. apply (l2_sub_add E L); [apply (Forall_inv Ha)|apply IH, (Forall_inv_tail Ha)]. }
  assert (Hp : forall l, Forall (usable pp) l -> gt_prod (map (fun k => (pk_pk k, pp_h pp)) l) = pairing (key_sum l) (pp_h pp)).
  { induction l as [|a l IH]; intros Ha; cbn [map gt_prod fold_right key_sum].
    - symmetry. apply (pairing_0_l L). apply Hpp.
    - fold (key_sum l). rewrite (lp_add_l E L); [|apply (Forall_inv Ha)|apply Hks, (Forall_inv_tail Ha)|apply Hpp].
      rewrite <- (IH (Forall_inv_tail Ha)). reflexivity. }
  apply (aggregated_equation E L) in H as (Hc & Hs & _ & H1 & H2 & v & Hn & He); auto. rewrite (Hp _ Hu) in He.
  split.
  - intros H'. apply (aggregated_equation E L) in H' as (_ & _ & _ & _ & _ & v' & Hn' & He'); auto. rewrite (Hp _ Hu') in He'.
    rewrite (node_at_fun _ _ _ _ Hn' Hn), He in He'. apply (gt_cancel_l L) in He'; [|exact H1|apply (sig_val_insub L), Hpp].
    apply (pairing_inj_l L) in He'; auto. apply Hpp.
  - intros Hk. apply (aggregated_equation E L); auto. split; [exact Hc|]. split; [exact Hs|]. split; [auto|]. split; [exact H1|]. split; [exact H2|].
    exists v. split; [exact Hn|]. rewrite (Hp _ Hu'), <- Hk. exact He.
Qed.

Lemma shifted_key_accepts : forall (E : env) (L : env_laws E) m m' (pp : pubparam E) s pk msg v t' v' msg' c,
  pp_ok pp -> g2_insub (pk_pk pk) = true -> verify m s pk pp msg = Ok true ->
  node_at (pp_depth pp) (sig_time s) v -> node_at (pp_depth pp) t' v' -> (sig_1 s <> g2_zero) ->
  (verify m' (relabel t' s) (shifted_key c s pk) pp msg' = Ok true
   <-> sig_val pp v (msg_scalar pp msg) = g1_add (sig_val pp v' (msg_scalar pp msg')) (g1_mul c (pp_h pp))).
Proof.
  intros E L m m' pp s pk msg v t' v' msg' c Hpp Hpk H Hn Hn' Hnz.
  pose proof (sig_val_insub L pp v (msg_scalar pp msg) Hpp) as HF. pose proof (sig_val_insub L pp v' (msg_scalar pp msg') Hpp) as HF'.
  assert (Hh : g1_insub (pp_h pp) = true) by apply Hpp.
  apply (verify_equation E L) in H as (Hc & Hs & H1 & H2 & w & Hw & He); auto. rewrite (node_at_fun _ _ _ _ Hw Hn) in He.
  assert (Hsh : g2_insub (pk_pk (shifted_key c s pk)) = true).
  { cbn [shifted_key pk_pk]. apply (l2_sub_add E L); [exact Hpk|apply (g2_mul_insub L), H1]. }
  assert (Hm : pairing (g2_mul c (sig_1 s)) (pp_h pp) = pairing (sig_1 s) (g1_mul c (pp_h pp))) by (apply (pairing_mul_swap L); auto).
  assert (Hr : gt_mul (pairing (sig_1 s) (sig_val pp v' (msg_scalar pp msg'))) (pairing (pk_pk (shifted_key c s pk)) (pp_h pp))
    = gt_mul (pairing (sig_1 s) (g1_add (sig_val pp v' (msg_scalar pp msg')) (g1_mul c (pp_h pp)))) (pairing (pk_pk pk) (pp_h pp))).
  { cbn [shifted_key pk_pk]. rewrite (lp_add_l E L), Hm, (lp_add_r E L); auto using (g2_mul_insub L), (g1_mul_insub L).
    rewrite (lt_comm E L (pairing (pk_pk pk) (pp_h pp))), (lt_assoc E L). reflexivity. }
  split.
  - intros H'. apply (verify_equation E L) in H' as (_ & _ & _ & _ & w' & Hw' & He'); auto.
    cbn [relabel sig_time sig_1 sig_2] in Hw', He'. rewrite (node_at_fun _ _ _ _ Hw' Hn'), Hr, He in He'.
    rewrite !(lt_comm E L _ (pairing (pk_pk pk) (pp_h pp))) in He'. apply (gt_cancel_l L) in He'; auto.
    apply (pairing_inj_r L) in He'; auto. apply (l1_sub_add E L); [exact HF'|apply (g1_mul_insub L), Hh].
  - intros HF2. apply (verify_equation E L); auto. cbn [relabel sig_cs sig_time sig_1 sig_2].
    split; [exact Hc|]. split; [exact Hs|]. split; [exact H1|]. split; [exact H2|]. exists v'. split; [exact Hn'|].
    rewrite Hr, <- HF2. exact He.
Qed.

Lemma blank_accepted : forall (E : env) (L : env_laws E) m (pp : pubparam E) cs x t msg,
  pp_ok pp -> (pp_cs pp = 0 \/ pp_cs pp = 1) -> 1 <= t <= last_time (pp_depth pp) ->
  verify m (blank_sig pp x t) (PubKey cs (g2_mul x (pp_g2 pp))) pp msg = Ok true.
Proof.
  intros E L m pp cs x t msg Hpp Hc Ht. destruct (node_at_ex _ _ Ht) as [v Hn].
  assert (Hg : g2_insub (pp_g2 pp) = true) by apply Hpp. assert (Hh : g1_insub (pp_h pp) = true) by apply Hpp.
  apply (verify_equation E L); [exact Hpp|apply (g2_mul_insub L), Hg|]. cbn [blank_sig sig_cs sig_time sig_1 sig_2 pk_pk].
  split; [exact Hc|]. split; [reflexivity|]. split; [apply (l2_sub0 E L)|]. split; [apply (g1_mul_insub L), Hh|]. exists v. split; [exact Hn|].
  rewrite (pairing_0_l L), (lt_one E L) by apply (sig_val_insub L), Hpp. symmetry. apply (pairing_mul_swap L); auto.
Qed.
Lemma blank_binds_not : forall (E : env) (L : env_laws E) m m' (pp : pubparam E) pk sk,
  pp_ok pp -> (pp_cs pp = 0 \/ pp_cs pp = 1) -> reachable m pp pk sk ->
  exists s2, forall t msg, 1 <= t <= last_time (pp_depth pp) ->
    verify m' (Signature (pp_cs pp) t g2_zero s2) pk pp msg = Ok true.
Proof.
  intros E L m m' pp pk sk Hpp Hc Hr. destruct (HistoryFacts.reachable_good L m pp pk sk Hpp Hr) as (x & _ & -> & _).
  exists (g1_mul x (pp_h pp)). intros t msg Ht. apply (blank_accepted E L); assumption.
Qed.

From Verif Require Import Toy ToyRun.
Lemma own_message_refuted : ~ (forall (E : env), env_laws E -> forall m (pp : pubparam E) pk sk s msg msg',
  pp_ok pp -> reachable m pp pk sk -> verify m s pk pp msg = Ok true -> verify m s pk pp msg' = Ok true ->
  msg_scalar pp msg = msg_scalar pp msg').
Proof.
  intros H. assert (Hr : reachable Debug tpp4 tpk4 tsk4) by (exists tseed, tsk4, tpop4, []; split; [exact tkeygen|reflexivity]).
  assert (Hc : pp_cs tpp4 = 0 \/ pp_cs tpp4 = 1) by (vm_compute; auto).
  destruct (blank_binds_not toy toy_laws Debug Debug tpp4 tpk4 tsk4 tpp4_ok Hc Hr) as [s2 Hs].
  assert (Ht : 1 <= 1 <= last_time (pp_depth tpp4)) by (vm_compute; split; discriminate).
  specialize (H toy toy_laws Debug tpp4 tpk4 tsk4 (Signature (pp_cs tpp4) 1 (g2_zero : G2 toy) s2) [0] [1] tpp4_ok Hr (Hs 1 [0] Ht) (Hs 1 [1] Ht)).
  assert (Hf : (msg_scalar tpp4 [0] =? msg_scalar tpp4 [1]) = false) by (vm_cast_no_check (eq_refl false)).
  rewrite H, N.eqb_refl in Hf. discriminate Hf.
Qed.
