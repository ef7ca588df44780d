(** Lemmas behind Properties_Agg.v: aggregates, changed signatures, arbitrary keys. *)
From Coq Require Import Sorting.Permutation Znumtheory ZArith.
From Verif Require Import Base Env NMod GroupFacts Time SpecTime TimeFacts TimeProps Hkdf Prng SpecPrng PrngFacts
  SubKey SecretKey Keys Sig IO Serdes Api SpecKey SubKeyFacts SpecUpdate UpdateFacts KeyFacts SpecSer IOFacts SerFacts
  HistoryFacts SpecSig KeyProps SigProps Primality VerProps SpecAgg.
From Coq Require Import ZifyBool ZifyNat ZifyN.
Local Open Scope N_scope.
Local Arguments N.add : simpl never.
Local Arguments N.mul : simpl never.
Local Arguments N.sub : simpl never.
Local Arguments pow2 : simpl never.
Local Opaque fr_modulus.

Lemma key_sum_sum2 {E} (pks : list (pubkey E)) : sum2 (map pk_pk pks) = key_sum pks.
Proof. induction pks as [|k pks IH]; [reflexivity|]. cbn [map sum2 fold_right key_sum]. f_equal. exact IH. Qed.
Lemma key_sum_insub {E} (L : env_laws E) (pp : pubparam E) (pks : list (pubkey E)) :
  Forall (usable pp) pks -> g2_insub (key_sum pks) = true.
Proof.
  induction 1 as [|k pks [_ Hk] _ IH]; [apply (l2_sub0 E L)|]. apply (l2_sub_add E L); assumption.
Qed.
Lemma usable_cs {E} (pp : pubparam E) (pks : list (pubkey E)) :
  Forall (usable pp) pks -> forallb (fun e => pp_cs pp =? pk_cs e) pks = true.
Proof.
  intros H. apply forallb_forall. intros k Hk. rewrite Forall_forall in H. destruct (H k Hk) as [Hc _]. lia.
Qed.

(** * C61 *)
Lemma key_sum_pairing {E} (L : env_laws E) (h : G1 E) (pks : list (pubkey E)) :
  g1_insub h = true -> Forall (fun k => g2_insub (pk_pk k) = true) pks ->
  g2_insub (key_sum pks) = true /\ pairing (key_sum pks) h = gt_prod (map (fun k => (pk_pk k, h)) pks).
Proof.
  intros Hh. induction 1 as [|k pks Hk _ [IH1 IH2]].
  - split; [apply (l2_sub0 E L)|apply (pairing_0_l L), Hh].
  - split; [apply (l2_sub_add E L); assumption|]. cbn [key_sum fold_right]. fold (key_sum pks).
    rewrite (lp_add_l E L), IH2; auto.
Qed.

Lemma aggregated_equation : forall (E : env) (L : env_laws E) m (pp : pubparam E) s pks msg,
  pp_ok pp -> pks <> [] -> Forall (fun k => g2_insub (pk_pk k) = true) pks ->
  (verify_aggregated m s pks pp msg = Ok true <->
   (pp_cs pp = 0 \/ pp_cs pp = 1) /\ sig_cs s = pp_cs pp /\ Forall (fun k => pk_cs k = pp_cs pp) pks
   /\ g2_insub (sig_1 s) = true /\ g1_insub (sig_2 s) = true
   /\ exists v, node_at (pp_depth pp) (sig_time s) v
      /\ pairing (pp_g2 pp) (sig_2 s)
         = gt_mul (pairing (sig_1 s) (sig_val pp v (msg_scalar pp msg)))
                  (gt_prod (map (fun k => (pk_pk k, pp_h pp)) pks))).
Proof.
  intros E L m pp s pks msg Hpp Hne Hin.
  destruct (key_sum_pairing L (pp_h pp) pks (ppo_h pp Hpp) Hin) as [Hs Hp].
  rewrite (verify_aggregated_sum L) by exact Hne. destruct (forallb _ pks) eqn:Ef; cbn [negb].
  - rewrite (verify_equation E L) by (auto; cbn [pk_pk]; rewrite key_sum_sum2; exact Hs).
    cbn [pk_pk]. rewrite key_sum_sum2, Hp.
    assert (Hf : Forall (fun k => pk_cs k = pp_cs pp) pks).
    { rewrite forallb_forall in Ef. apply Forall_forall. intros k Hk. specialize (Ef k Hk). lia. }
    split; [intros (H1 & H2 & H3 & H4 & H5)|intros (H1 & H2 & _ & H3 & H4 & H5)]; repeat split; auto.
  - split; [discriminate|]. intros (_ & _ & Hf & _). exfalso.
    rewrite <- not_true_iff_false in Ef. apply Ef. apply forallb_forall. intros k Hk.
    rewrite Forall_forall in Hf. specialize (Hf k Hk). cbv beta in Hf. lia.
Qed.

Lemma aggregated_total : forall (E : env) (L : env_laws E) m (pp : pubparam E) s pks msg,
  pp_ok pp -> pks <> [] -> exists b, verify_aggregated m s pks pp msg = Ok b.
Proof.
  intros E L m pp s pks msg Hpp Hne. rewrite (verify_aggregated_sum L) by exact Hne.
  destruct (negb _); [eauto|]. apply (verify_no_panic L), Hpp.
Qed.

Lemma aggregated_single : forall (E : env) m (pp : pubparam E) s pk msg,
  verify_aggregated m s [pk] pp msg = if pk_cs pk =? pp_cs pp then verify m s pk pp msg else Ok false.
Proof.
  intros E m pp s [cs p] msg. unfold verify_aggregated, verify. cbn [forallb pk_cs pk_pk fold_left].
  rewrite andb_true_r, (N.eqb_sym (pp_cs pp)). destruct (cs =? pp_cs pp); cbn [negb]; [|reflexivity].
  destruct (sig_cs s =? pp_cs pp); cbn [negb]; [reflexivity|]. destruct (negb (valid_cs _)); reflexivity.
Qed.

(** * C62 *)
Lemma rogue_key : forall (E : env) (L : env_laws E) m (pp : pubparam E) pks y t v k msg,
  pp_ok pp -> (pp_cs pp = 0 \/ pp_cs pp = 1) -> Forall (usable pp) pks -> node_at (pp_depth pp) t v ->
  usable pp (rogue pp y pks)
  /\ verify_aggregated m (honest_sig pp y t v (msg_scalar pp msg) k) (rogue pp y pks :: pks) pp msg = Ok true.
Proof.
  intros E L m pp pks y t v k msg Hpp Hcs Hu Hn. pose proof (key_sum_insub L pp pks Hu) as Hs.
  assert (Hr : usable pp (rogue pp y pks)).
  { split; [reflexivity|]. cbn [rogue pk_pk]. apply (l2_sub_add E L); [apply (g2_mul_insub L), Hpp|apply (l2_sub_neg E L), Hs]. }
  split; [exact Hr|]. rewrite (verify_aggregated_sum L) by discriminate.
  rewrite (usable_cs pp) by (constructor; assumption). cbn [negb]. rewrite key_sum_sum2.
  replace (key_sum (rogue pp y pks :: pks)) with (g2_mul y (pp_g2 pp)).
  - apply (verify_honest L); auto. apply valid_cs_iff, Hcs.
  - cbn [key_sum fold_right rogue pk_pk]. fold (key_sum pks). rewrite <- (l2_assoc E L), (l2_comm E L (g2_neg _)), (l2_neg E L).
    rewrite (l2_comm E L), (l2_zero E L). reflexivity.
Qed.

(** * C63 *)
Lemma mul_mod1 {E} (L : env_laws E) n (x : G1 E) : g1_insub x = true -> g1_mul (n mod fr_modulus) x = g1_mul n x.
Proof.
  intros Hx. rewrite (N.div_mod' n fr_modulus) at 2. rewrite (l1_mul_add E L), N.mul_comm, (l1_mul_mul E L), (l1_order E L x Hx).
  rewrite (nm_mulz _ _ _ (nmod_g1 L)), (l1_zero E L). reflexivity.
Qed.
Lemma mul_mod2 {E} (L : env_laws E) n (x : G2 E) : g2_insub x = true -> g2_mul (n mod fr_modulus) x = g2_mul n x.
Proof.
  intros Hx. rewrite (N.div_mod' n fr_modulus) at 2. rewrite (l2_mul_add E L), N.mul_comm, (l2_mul_mul E L), (l2_order E L x Hx).
  rewrite (nm_mulz _ _ _ (nmod_g2 L)), (l2_zero E L). reflexivity.
Qed.
(** Inverses modulo the prime. *)
Lemma inverse_mod n : n mod fr_modulus <> 0 -> exists i, i * n mod fr_modulus = 1.
Proof.
  intros Hn. assert (H1 : 1 < fr_modulus) by reflexivity.
  assert (Hrel : rel_prime (Z.of_N n) (Z.of_N fr_modulus)).
  { apply rel_prime_sym, prime_rel_prime; [exact r_prime|]. intros Hd. apply Hn.
    apply Z.mod_divide in Hd; [|lia]. rewrite <- N2Z.inj_mod in Hd; lia. }
  apply rel_prime_bezout in Hrel as [u v Huv]. exists (Z.to_N (u mod Z.of_N fr_modulus)).
  assert (Hz : (Z.of_N (Z.to_N (u mod Z.of_N fr_modulus)) * Z.of_N n mod Z.of_N fr_modulus = 1)%Z).
  { rewrite Z2N.id by (apply Z.mod_pos_bound; lia). rewrite Z.mul_mod_idemp_l by lia.
    replace (u * Z.of_N n)%Z with (1 + (- v) * Z.of_N fr_modulus)%Z by lia.
    rewrite Z.mod_add, Z.mod_small by lia. reflexivity. }
  apply N2Z.inj. rewrite N2Z.inj_mod, N2Z.inj_mul. exact Hz.
Qed.
Lemma mul2_zero {E} (L : env_laws E) (g : G2 E) n :
  g2_insub g = true -> g <> g2_zero -> (g2_mul n g = g2_zero <-> n mod fr_modulus = 0).
Proof.
  intros Hin Hnz. split.
  - intros H. destruct (N.eq_dec (n mod fr_modulus) 0) as [|Hn]; [assumption|]. exfalso. apply Hnz.
    destruct (inverse_mod n Hn) as [i Hi]. rewrite <- (l2_mul1 E L g), <- Hi, (mul_mod2 L) by exact Hin.
    rewrite (l2_mul_mul E L), H. apply (nm_mulz _ _ _ (nmod_g2 L)).
  - intros H. rewrite <- (mul_mod2 L), H by exact Hin. apply (l2_mul0 E L).
Qed.

Lemma rerandomized_accepted : forall (E : env) (L : env_laws E) m m' (pp : pubparam E) s pk msg v k,
  pp_ok pp -> g2_insub (pk_pk pk) = true -> node_at (pp_depth pp) (sig_time s) v ->
  verify m s pk pp msg = Ok true ->
  verify m' (rerandomized pp v (msg_scalar pp msg) k s) pk pp msg = Ok true.
Proof.
  intros E L m m' pp s pk msg v k Hpp Hpk Hn H. pose proof (sig_val_insub L pp v (msg_scalar pp msg) Hpp) as HF.
  apply (verify_spec L) in H as (Hc & Hs & H1 & H2 & v' & Hn' & He); auto.
  rewrite (node_at_fun _ _ _ _ Hn' Hn) in He.
  apply (verify_spec L); auto. unfold rerandomized, shift_sig. cbn [sig_cs sig_time sig_1 sig_2].
  split; [exact Hc|]. split; [exact Hs|]. split; [apply (l2_sub_add E L); [exact H1|apply (g2_mul_insub L), Hpp]|].
  split; [apply (l1_sub_add E L); [exact H2|apply (g1_mul_insub L), HF]|]. exists v. split; [exact Hn|].
  rewrite (lp_add_r E L), (lp_add_l E L), He; auto using (ppo_g2 pp Hpp), (g1_mul_insub L), (g2_mul_insub L).
  rewrite (pairing_mul_swap L) by (auto; apply Hpp).
  rewrite <- !(lt_assoc E L). f_equal. apply (lt_comm E L).
Qed.

Lemma rerandomized_same : forall (E : env) (L : env_laws E) (pp : pubparam E) v M k s,
  pp_ok pp -> pp_g2 pp <> g2_zero -> (rerandomized pp v M k s = s <-> k mod fr_modulus = 0).
Proof.
  intros E L pp v M k s Hpp Hnz. pose proof (ppo_g2 pp Hpp) as Hg. pose proof (sig_val_insub L pp v M Hpp) as HF. split.
  - intros H. apply (f_equal sig_1) in H. unfold rerandomized, shift_sig in H. cbn [sig_1] in H.
    apply (mul2_zero L (pp_g2 pp)); auto. apply (g2_cancel L (sig_1 s)). rewrite H, (l2_comm E L), (l2_zero E L). reflexivity.
  - intros H. unfold rerandomized, shift_sig. rewrite <- (mul_mod2 L k), <- (mul_mod1 L k), H by assumption.
    rewrite (l1_mul0 E L), (l2_mul0 E L), (l1_comm E L), (l2_comm E L), (l1_zero E L), (l2_zero E L). destruct s; reflexivity.
Qed.

Lemma accepted_differ : forall (E : env) (L : env_laws E) m m' (pp : pubparam E) s s' pk msg v,
  pp_ok pp -> pp_g2 pp = g2_one -> g2_insub (pk_pk pk) = true ->
  verify m s pk pp msg = Ok true -> verify m' s' pk pp msg = Ok true ->
  sig_time s' = sig_time s -> node_at (pp_depth pp) (sig_time s) v ->
  exists k, s' = rerandomized pp v (msg_scalar pp msg) k s.
Proof.
  intros E L m m' pp s s' pk msg v Hpp Hg Hpk H H' Ht Hn.
  assert (Hs : exists k, sig_1 s' = g2_add (sig_1 s) (g2_mul k (pp_g2 pp))).
  { apply (verify_spec L) in H as (_ & _ & H1 & _); auto. apply (verify_spec L) in H' as (_ & _ & H1' & _); auto.
    destruct (l2_gen E L (g2_add (sig_1 s') (g2_neg (sig_1 s)))) as [k Hk].
    { apply (l2_sub_add E L); [exact H1'|apply (l2_sub_neg E L), H1]. }
    exists k. rewrite Hg, <- Hk. rewrite (l2_comm E L (sig_1 s')), (l2_assoc E L), (l2_neg E L), (l2_zero E L). reflexivity. }
  destruct Hs as [k Hk]. exists k.
  apply (second_component_unique E L m' m pp s' (rerandomized pp v (msg_scalar pp msg) k s) pk msg); auto.
  - rewrite Hg. apply (l2_one_nz E L).
  - apply (rerandomized_accepted E L m m); auto.
Qed.

(** * C64 *)
Lemma shifted_rejected {E} (L : env_laws E) m m' (pp : pubparam E) s pk msg D :
  pp_ok pp -> pp_g2 pp <> g2_zero -> g2_insub (pk_pk pk) = true ->
  verify m s pk pp msg = Ok true -> D <> g1_zero ->
  verify m' (shift_sig s g2_zero D) pk pp msg = Ok false.
Proof.
  intros Hpp Hnz Hpk H HD. destruct (verify_no_panic L m' pp (shift_sig s g2_zero D) pk msg Hpp) as [[|] Hb]; [|exact Hb].
  exfalso. apply HD. assert (Hs : shift_sig s g2_zero D = s).
  { apply (second_component_unique E L m' m pp _ _ pk msg); auto. unfold shift_sig. cbn [sig_1].
    rewrite (l2_comm E L), (l2_zero E L). reflexivity. }
  apply (f_equal sig_2) in Hs. unfold shift_sig in Hs. cbn [sig_2] in Hs.
  apply (verify_spec L) in H as (_ & _ & _ & H2 & _); auto.
  apply (g1_cancel L (sig_2 s)); [exact H2|]. rewrite Hs, (l1_comm E L), (l1_zero E L). reflexivity.
Qed.

Lemma rejected_parts : forall (E : env) (L : env_laws E) m m' (pp : pubparam E) s1 s2 pk1 pk2 msg D D',
  pp_ok pp -> pp_g2 pp <> g2_zero -> g2_insub (pk_pk pk1) = true -> g2_insub (pk_pk pk2) = true ->
  verify m s1 pk1 pp msg = Ok true -> verify m s2 pk2 pp msg = Ok true ->
  D <> g1_zero -> g1_add D D' = g1_zero ->
  verify m' (shift_sig s1 g2_zero D) pk1 pp msg = Ok false
  /\ verify m' (shift_sig s2 g2_zero D') pk2 pp msg = Ok false
  /\ aggregate [shift_sig s1 g2_zero D; shift_sig s2 g2_zero D'] = aggregate [s1; s2].
Proof.
  intros E L m m' pp s1 s2 pk1 pk2 msg D D' Hpp Hnz Hk1 Hk2 H1 H2 HD HDD.
  split; [apply (shifted_rejected L m); auto|]. split.
  { apply (shifted_rejected L m); auto. intros ->. apply HD. rewrite (l1_comm E L), (l1_zero E L) in HDD. exact HDD. }
  unfold aggregate, shift_sig. cbn [agg_check sig_cs sig_time fold_left sig_1 sig_2].
  destruct (negb (sig_cs s1 =? sig_cs s2)); [reflexivity|]. destruct (negb (sig_time s1 =? sig_time s2)); [reflexivity|].
  cbn [bind]. f_equal. f_equal; [g2_solve L|].
  replace (g1_add (g1_add (sig_2 s1) D) (g1_add (sig_2 s2) D')) with (g1_add (g1_add (sig_2 s1) (sig_2 s2)) (g1_add D D')) by g1_solve L.
  rewrite HDD, (l1_comm E L), (l1_zero E L). reflexivity.
Qed.

Lemma gt_prod_cancel {E} (L : env_laws E) : forall (l : list (G2 E * G1 E)) a b,
  Forall (fun xy => g2_insub (fst xy) = true /\ g1_insub (snd xy) = true) l ->
  gt_mul (gt_prod l) a = gt_mul (gt_prod l) b -> a = b.
Proof.
  induction l as [|[x y] l IH]; intros a b Hf H.
  - cbn in H. rewrite !(lt_one E L) in H. exact H.
  - inversion Hf as [|? ? [Hx Hy] Hl]; subst. cbn [fst snd] in Hx, Hy. unfold gt_prod in H. cbn [fold_right fst snd] in H.
    fold (gt_prod l) in H. rewrite <- !(lt_assoc E L) in H. apply (gt_cancel L) in H; auto.
Qed.
Lemma g1_sub_cancel {E} (L : env_laws E) (x y : G1 E) :
  g1_insub (g1_add x y) = true -> g1_insub y = true -> g1_insub x = true.
Proof.
  intros H Hy. replace x with (g1_add (g1_add x y) (g1_opp y)); [apply (l1_sub_add E L); [exact H|apply (g1_mul_insub L), Hy]|].
  rewrite <- (l1_assoc E L), (g1_opp_r L), (l1_comm E L), (l1_zero E L); auto.
Qed.
Lemma g2_sub_cancel {E} (L : env_laws E) (x y : G2 E) :
  g2_insub (g2_add x y) = true -> g2_insub y = true -> g2_insub x = true.
Proof.
  intros H Hy. replace x with (g2_add (g2_add x y) (g2_neg y)); [apply (l2_sub_add E L); [exact H|apply (l2_sub_neg E L), Hy]|].
  rewrite <- (l2_assoc E L), (l2_neg E L), (l2_comm E L), (l2_zero E L); auto.
Qed.

Lemma gt_rearrange {E} (L : env_laws E) (x P Q a b : GT E) :
  gt_mul x (gt_mul Q P) = gt_mul (gt_mul a Q) (gt_mul b P) -> gt_mul P (gt_mul Q x) = gt_mul P (gt_mul Q (gt_mul a b)).
Proof.
  assert (Sw : forall u w z : GT E, gt_mul u (gt_mul w z) = gt_mul w (gt_mul u z))
    by (intros u w z; rewrite !(lt_assoc E L), (lt_comm E L u w); reflexivity).
  intros H. rewrite (lt_comm E L Q x), (Sw P x Q), (lt_comm E L P Q), H. rewrite <- (lt_assoc E L).
  rewrite (Sw Q b P), (Sw a b _), (lt_comm E L Q P), (Sw a P Q), (Sw b P _), (lt_comm E L a Q), (Sw b Q a), (lt_comm E L b a).
  reflexivity.
Qed.

Lemma last_part_accepted : forall (E : env) (L : env_laws E) m m' m'' (pp : pubparam E) s pk (l : list (signature E * pubkey E)) a msg,
  pp_ok pp -> g2_insub (pk_pk pk) = true -> Forall (fun sp => g2_insub (pk_pk (snd sp)) = true) l ->
  Forall (fun sp => verify m (fst sp) (snd sp) pp msg = Ok true) l ->
  aggregate (s :: map fst l) = Ok a -> verify_aggregated m' a (pk :: map snd l) pp msg = Ok true ->
  verify m'' s pk pp msg = Ok true.
Proof.
  intros E L m m' m'' pp s pk l a msg Hpp Hpk Hin Hok Ha Hv.
  apply (aggregate_ok L) in Ha as (_ & Hf & H1 & H2). inversion Hf as [|? ? [Hc Ht] Hf']; subst.
  apply (aggregated_equation E L) in Hv; auto; [|discriminate|constructor; [exact Hpk|apply Forall_map; exact Hin]].
  destruct Hv as (Hcs & Hsc & _ & Ha1 & Ha2 & v & Hn & He).
  cbn [map] in H1, H2. cbn [sum1 sum2 fold_right] in H1, H2. fold (sum2 (map sig_1 (map fst l))) in H1. fold (sum1 (map sig_2 (map fst l))) in H2.
  assert (HF := sig_val_insub L pp v (msg_scalar pp msg) Hpp).
  assert (Hsum : g2_insub (sum2 (map sig_1 (map fst l))) = true /\ g1_insub (sum1 (map sig_2 (map fst l))) = true
    /\ pairing (pp_g2 pp) (sum1 (map sig_2 (map fst l)))
       = gt_mul (pairing (sum2 (map sig_1 (map fst l))) (sig_val pp v (msg_scalar pp msg)))
                (gt_prod (map (fun k => (pk_pk k, pp_h pp)) (map snd l)))).
  { clear Hf H1 H2 He. revert Hin Hok Hf'. induction l as [|[s' k'] l IH]; intros Hin Hok Hf'.
    - cbn. rewrite (pairing_0_l L), (pairing_0_r L), (lt_one E L) by (auto; apply Hpp).
      split; [apply (l2_sub0 E L)|]. split; [apply (l1_sub0 E L)|reflexivity].
    - inversion Hin as [|? ? Hi Hin']; subst. inversion Hok as [|? ? Ho Hok']; subst. inversion Hf' as [|? ? [Hc' Ht'] Hf'']; subst.
      cbn [fst snd map] in *. destruct (IH Hin' Hok' Hf'') as (I1 & I2 & I3).
      apply (verify_spec L) in Ho as (_ & _ & J1 & J2 & v' & Hn' & J3); auto.
      rewrite Ht' in Hn'. rewrite (node_at_fun _ _ _ _ Hn' Hn) in J3.
      cbn [sum1 sum2 fold_right]. fold (sum2 (map sig_1 (map fst l))). fold (sum1 (map sig_2 (map fst l))).
      split; [apply (l2_sub_add E L); assumption|]. split; [apply (l1_sub_add E L); assumption|].
      rewrite (lp_add_r E L), (lp_add_l E L), I3, J3; auto; [|apply Hpp].
      unfold gt_prod at 2. cbn [fold_right map fst snd]. fold (gt_prod (map (fun k => (pk_pk k, pp_h pp)) (map snd l))).
      rewrite <- !(lt_assoc E L). f_equal. rewrite !(lt_assoc E L). f_equal. apply (lt_comm E L). }
  destruct Hsum as (S1 & S2 & S3). rewrite H1 in Ha1. rewrite H2 in Ha2.
  pose proof (g2_sub_cancel L _ _ Ha1 S1) as B1. pose proof (g1_sub_cancel L _ _ Ha2 S2) as B2.
  apply (verify_spec L); auto. split; [apply valid_cs_iff, Hcs|]. split; [congruence|]. split; [exact B1|]. split; [exact B2|].
  exists v. split; [congruence|].
  rewrite H1, H2, (lp_add_r E L), (lp_add_l E L), S3 in He; auto; [|apply Hpp].
  cbn [map] in He. unfold gt_prod in He. cbn [fold_right fst snd] in He.
  fold (gt_prod (map (fun k => (pk_pk k, pp_h pp)) (map snd l))) in He.
  set (P := gt_prod _) in *. set (Q := pairing (sum2 _) _) in *.
  assert (He' := gt_rearrange L _ _ _ _ _ He).
  unfold P, Q in He'. apply (gt_prod_cancel L) in He'; [apply (gt_cancel L) in He'; auto|].
  apply Forall_map, Forall_map. eapply Forall_impl; [|exact Hin]. cbn. intros sp Hsp. split; [exact Hsp|apply Hpp].
Qed.

(** * C65 *)
Lemma pairing_scale {E} (L : env_laws E) (g x p : G2 E) (y f h : G1 E) :
  g2_insub g = true -> g2_insub x = true -> g2_insub p = true ->
  g1_insub y = true -> g1_insub f = true -> g1_insub h = true ->
  pairing g y = gt_mul (pairing x f) (pairing p h) ->
  forall a, pairing g (g1_mul a y) = gt_mul (pairing x (g1_mul a f)) (pairing p (g1_mul a h)).
Proof.
  intros Hg Hx Hp Hy Hf Hh He a. induction a as [|a IH] using N.peano_ind.
  - rewrite !(l1_mul0 E L), !(pairing_0_r L), (lt_one E L); auto.
  - rewrite <- N.add_1_l, !(l1_mul_add E L), !(l1_mul1 E L), !(lp_add_r E L), He, IH; auto using (g1_mul_insub L).
    rewrite <- !(lt_assoc E L). f_equal. rewrite !(lt_assoc E L). f_equal. apply (lt_comm E L).
Qed.

Lemma two_messages M M' M'' :
  M < fr_modulus -> M' < fr_modulus -> M <> M' ->
  exists a b, (a + b) mod fr_modulus = 1 /\ (a * M + b * M') mod fr_modulus = M'' mod fr_modulus.
Proof.
  intros HM HM' Hne. assert (Hp : 1 < fr_modulus) by reflexivity.
  assert (Hpr : prime (Z.of_N fr_modulus)) by exact r_prime. set (p := fr_modulus) in *. clearbody p.
  assert (Hrel : rel_prime (Z.of_N M - Z.of_N M') (Z.of_N p)).
  { apply rel_prime_sym, prime_rel_prime; [exact Hpr|]. intros [q Hq].
    destruct (Z.eq_dec q 0) as [->|Hq0]; [lia|]. nia. }
  apply rel_prime_bezout in Hrel as [u w Huw].
  set (za := (u * (Z.of_N M'' - Z.of_N M'))%Z). set (a := (za mod Z.of_N p)%Z). set (b := ((1 - a) mod Z.of_N p)%Z).
  assert (Ha : (0 <= a < Z.of_N p)%Z) by (apply Z.mod_pos_bound; lia).
  assert (Hb : (0 <= b < Z.of_N p)%Z) by (apply Z.mod_pos_bound; lia).
  pose proof (Z.div_mod za (Z.of_N p) ltac:(lia)) as Ea. pose proof (Z.div_mod (1 - a) (Z.of_N p) ltac:(lia)) as Eb.
  fold a in Ea. fold b in Eb. set (q1 := (za / Z.of_N p)%Z) in *. set (q2 := ((1 - a) / Z.of_N p)%Z) in *.
  exists (Z.to_N a), (Z.to_N b). split; apply N2Z.inj; rewrite !N2Z.inj_mod.
  - rewrite N2Z.inj_add, !Z2N.id by lia. replace (a + b)%Z with (1 + (- q2) * Z.of_N p)%Z by lia.
    rewrite Z.mod_add, Z.mod_small by lia. reflexivity.
  - rewrite N2Z.inj_add, !N2Z.inj_mul, !Z2N.id by lia.
    replace (a * Z.of_N M + b * Z.of_N M')%Z
      with (Z.of_N M'' + (- w * (Z.of_N M'' - Z.of_N M') - q1 * (Z.of_N M - Z.of_N M') - q2 * Z.of_N M') * Z.of_N p)%Z.
    { apply Z.mod_add. lia. }
    replace b with (1 - a - Z.of_N p * q2)%Z by lia. replace a with (za - Z.of_N p * q1)%Z by lia. unfold za.
    replace (u * (Z.of_N M'' - Z.of_N M') - Z.of_N p * q1)%Z with (za - Z.of_N p * q1)%Z by reflexivity.
    assert (Hz : (za * (Z.of_N M - Z.of_N M') = (1 - w * Z.of_N p) * (Z.of_N M'' - Z.of_N M'))%Z).
    { unfold za. rewrite <- Huw. ring. }
    replace ((za - Z.of_N p * q1) * Z.of_N M + (1 - (za - Z.of_N p * q1) - Z.of_N p * q2) * Z.of_N M')%Z
      with (za * (Z.of_N M - Z.of_N M') - Z.of_N p * q1 * (Z.of_N M - Z.of_N M') + Z.of_N M' - Z.of_N p * q2 * Z.of_N M')%Z by ring.
    rewrite Hz. ring.
Qed.

Lemma reused_randomness : forall (E : env) (L : env_laws E) m m' m'' (pp : pubparam E) M M' M'',
  pp_ok pp -> M < fr_modulus -> M' < fr_modulus -> M <> M' ->
  exists a b, forall s s' pk msg msg' msg'',
    g2_insub (pk_pk pk) = true -> msg_scalar pp msg = M -> msg_scalar pp msg' = M' -> msg_scalar pp msg'' = M'' ->
    verify m s pk pp msg = Ok true -> verify m' s' pk pp msg' = Ok true ->
    sig_time s' = sig_time s -> sig_1 s' = sig_1 s ->
    verify m'' (Signature (sig_cs s) (sig_time s) (sig_1 s) (g1_add (g1_mul a (sig_2 s)) (g1_mul b (sig_2 s')))) pk pp msg''
    = Ok true.
Proof.
  intros E L m m' m'' pp M M' M'' Hpp HM HM' Hne. destruct (two_messages M M' M'' HM HM' Hne) as (a & b & H1 & H2).
  exists a, b. intros s s' pk msg msg' msg'' Hpk Em Em' Em'' Hv Hv' Ht H1'.
  apply (verify_spec L) in Hv as (Hc & Hs & I1 & I2 & v & Hn & He); auto.
  apply (verify_spec L) in Hv' as (_ & _ & _ & I2' & v' & Hn' & He'); auto.
  rewrite Ht in Hn'. rewrite (node_at_fun _ _ _ _ Hn' Hn), H1', Em' in He'. rewrite Em in He.
  pose proof (ppo_g2 pp Hpp) as Hg. pose proof (ppo_h pp Hpp) as Hh.
  pose proof (sig_val_insub L pp v M Hpp) as HF. pose proof (sig_val_insub L pp v M' Hpp) as HF'.
  apply (verify_spec L); auto. cbn [sig_cs sig_time sig_1 sig_2]. split; [exact Hc|]. split; [exact Hs|]. split; [exact I1|].
  split; [apply (l1_sub_add E L); apply (g1_mul_insub L); assumption|]. exists v. split; [exact Hn|].
  rewrite (lp_add_r E L) by auto using (g1_mul_insub L).
  rewrite (pairing_scale L _ _ _ _ _ _ Hg I1 Hpk I2 HF Hh He a), (pairing_scale L _ _ _ _ _ _ Hg I1 Hpk I2' HF' Hh He' b).
  rewrite <- (lt_assoc E L), (lt_assoc E L (pairing (pk_pk pk) _)), (lt_comm E L (pairing (pk_pk pk) _)), <- (lt_assoc E L), (lt_assoc E L).
  rewrite <- !(lp_add_r E L) by auto using (g1_mul_insub L). f_equal.
  - f_equal. rewrite Em''. unfold sig_val.
    assert (HN := node_val_insub L pp v Hpp). set (hd := nth (pp_depth pp) (pp_hlist pp) g1_zero).
    assert (Hd : g1_insub hd = true) by (apply (Forall_nth_insub L), Hpp).
    rewrite <- (mul_mod1 L M'' hd Hd), <- H2, (mul_mod1 L _ hd Hd).
    rewrite <- (l1_mul1 E L (node_val pp v)) at 3. rewrite <- H1, (mul_mod1 L _ _ HN). g1_solve L.
  - f_equal. rewrite <- (l1_mul_add E L), <- (mul_mod1 L) by exact Hh. rewrite H1. apply (l1_mul1 E L).
Qed.

Lemma mul2_inj {E} (L : env_laws E) (g : G2 E) a b :
  g2_insub g = true -> g <> g2_zero -> a < fr_modulus -> b < fr_modulus -> g2_mul a g = g2_mul b g -> a = b.
Proof.
  assert (Hno : forall a b, g2_insub g = true -> g <> g2_zero -> a < b -> b < fr_modulus -> g2_mul a g = g2_mul b g -> False).
  { clear a b. intros a b Hin Hnz Hlt Hb He. replace b with (a + (b - a)) in He by lia. rewrite (l2_mul_add E L) in He.
    assert (Hz : g2_mul (b - a) g = g2_zero).
    { apply (g2_cancel L (g2_mul a g)). rewrite <- He, (l2_comm E L _ g2_zero), (l2_zero E L). reflexivity. }
    apply (mul2_zero L) in Hz; auto. rewrite N.mod_small in Hz by lia. lia. }
  intros Hin Hnz Ha Hb He. destruct (N.lt_trichotomy a b) as [Hl|[|Hl]]; [|assumption|]; exfalso; eauto.
Qed.

Lemma same_first_component : forall (E : env) (L : env_laws E) m m' m'' (pp : pubparam E) pk sk msg msg' s s',
  pp_ok pp -> pp_g2 pp <> g2_zero -> reachable m pp pk sk ->
  fst (sign_present m' (sec_time sk) pp msg sk) = Ok s -> fst (sign_present m'' (sec_time sk) pp msg' sk) = Ok s' ->
  (sig_1 s = sig_1 s' <->
   spec_scalar (sha512 E) (sec_prng sk) (sign_info msg (sec_time sk))
   = spec_scalar (sha512 E) (sec_prng sk) (sign_info msg' (sec_time sk))).
Proof.
  intros E L m m' m'' pp pk sk msg msg' s s' Hpp Hnz Hr Hs Hs'.
  destruct (reachable_good L m pp pk sk Hpp Hr) as (x & _ & Hpk & Hg & Hcs).
  destruct (good_sk_head pp x sk Hg) as (v0 & r0 & l0 & _ & E0).
  destruct (sign_bytes_good L m' pp x sk msg Hpp Hcs Hg) as (v & r & Hn & (rest & Hsk) & Hsig).
  destruct (sign_bytes_good L m'' pp x sk msg' Hpp Hcs Hg) as (v' & r' & Hn' & (rest' & Hsk') & Hsig').
  unfold sign_present, sbind, sget, slift in Hs, Hs'. rewrite N.eqb_refl in Hs, Hs'. cbn [negb fst] in Hs, Hs'.
  rewrite Hsig in Hs. rewrite Hsig' in Hs'. injection Hs as <-. injection Hs' as <-. cbn [honest_sig sig_1].
  assert (Hrr : g2_mul r (pp_g2 pp) = g2_mul r' (pp_g2 pp)).
  { rewrite Hsk in Hsk'. injection Hsk' as Hg2 _ _ _. exact Hg2. }
  pose proof (ppo_g2 pp Hpp) as Hin. rewrite !(l2_mul_add E L), Hrr. split.
  - intros H. apply (g2_cancel L) in H. apply (mul2_inj L (pp_g2 pp)); auto using spec_scalar_lt.
  - intros H. unfold sign_info in *. rewrite H. reflexivity.
Qed.

(** * C67 *)
Lemma last_snoc {A} (l : list A) : l <> [] -> exists i x, l = i ++ [x].
Proof. intros H. destruct (exists_last H) as (i & x & Hx). eauto. Qed.

Lemma sign_any_key : forall (E : env) (L : env_laws E) m (pp : pubparam E) sk t msg,
  pp_ok pp ->
  snd (sign_present m t pp msg sk) = sk
  /\ match fst (sign_present m t pp msg sk) with
     | Ok s => (pp_cs pp = 0 \/ pp_cs pp = 1) /\ sec_cs sk = pp_cs pp /\ sec_time sk = t
         /\ exists ssk rest v init last, sec_ssk sk = ssk :: rest /\ node_at (pp_depth pp) (sk_t ssk) v
              /\ sk_hvec ssk = init ++ [last]
              /\ let k := spec_scalar (sha512 E) (sec_prng sk) (sign_info msg t) in
                 s = Signature (pp_cs pp) t (g2_add (sk_g2r ssk) (g2_mul k (pp_g2 pp)))
                       (g1_add (g1_add (sk_hpoly ssk) (g1_mul (msg_scalar pp msg) last))
                               (g1_mul k (sig_val pp v (msg_scalar pp msg))))
     | Err e =>
         (e = E_TIME_STAMP /\ sec_time sk <> t)
         \/ (e = E_CIPHERSUITE /\ (~ (pp_cs pp = 0 \/ pp_cs pp = 1) \/ sec_cs sk <> pp_cs pp))
         \/ (e = E_SSK_EMPTY /\ sec_ssk sk = [])
         \/ exists ssk rest, sec_ssk sk = ssk :: rest
              /\ ((e = E_SSK_EMPTY /\ sk_hvec ssk = [])
                  \/ ((e = E_TIME_STAMP \/ e = E_TIME_DEPTH) /\ ~ (1 <= sk_t ssk <= last_time (pp_depth pp))))
     | Panic _ => False
     end.
Proof.
  intros E L m pp sk t msg Hpp. pose proof (ppo_depth pp Hpp) as Hd. pose proof (ppo_len pp Hpp) as Hlen.
  unfold sign_present, sbind, sget, slift. destruct (sec_time sk =? t) eqn:Et; cbn [negb fst snd].
  2:{ split; [reflexivity|]. left. split; [reflexivity|lia]. }
  split; [reflexivity|]. unfold sign_bytes.
  destruct (valid_cs (pp_cs pp)) eqn:Ev; cbn [negb].
  2:{ right. left. split; [reflexivity|]. left. rewrite <- valid_cs_iff. congruence. }
  destruct (sec_cs sk =? pp_cs pp) eqn:Ec; cbn [negb].
  2:{ right. left. split; [reflexivity|]. right. lia. }
  rewrite Et. cbn [negb]. rewrite sample_spec by apply (hash_len_env L). cbn [bind].
  rewrite (hash_msg_spec L). cbn [bind]. unfold sign_fr. rewrite Et. cbn [negb]. unfold first_ssk.
  destruct (sec_ssk sk) as [|ssk rest] eqn:Es; cbn [bind]; [tauto|]. unfold ssk_time_vec.
  destruct (N.le_gt_cases 1 (sk_t ssk)) as [H1|H1], (N.le_gt_cases (sk_t ssk) (last_time (pp_depth pp))) as [H2|H2].
  2-4: rewrite tv_init_err by lia; cbn [bind]; right; right; right; exists ssk, rest;
       (split; [reflexivity|]); right; (split; [destruct (_ || _); tauto|lia]).
  destruct (tv_init_ex m (pp_depth pp) (sk_t ssk) ltac:(lia) ltac:(lia)) as (v & Hn & ->). cbn [bind tv_vec].
  destruct (node_at_turn _ _ _ Hn) as [Htn Hl].
  rewrite (nth_res_ok _ _ g1_zero) by lia. cbn [bind]. rewrite (poly_loop_node L) by auto. cbn [bind].
  rewrite (nth_res_ok _ _ g1_zero) by lia. cbn [bind]. unfold last_hvector_coeff.
  destruct (sk_hvec ssk) as [|y ys] eqn:Ehv; cbn [bind].
  { right. right. right. exists ssk, rest. split; [reflexivity|]. left. auto. }
  destruct (last_snoc (y :: ys)) as (i & z & Hz); [discriminate|]. rewrite Hz.
  rewrite (nth_res_ok _ _ g1_zero) by (rewrite app_length; cbn [length]; lia). cbn [bind].
  split; [apply valid_cs_iff, Ev|]. split; [lia|]. split; [lia|].
  exists ssk, rest, v, i, z. split; [reflexivity|]. split; [exact Hn|]. split; [congruence|]. cbv zeta. unfold sig_val. f_equal.
  f_equal. f_equal. f_equal. rewrite app_length. cbn [length]. rewrite app_nth2 by lia.
  replace (length i + 1 - 1 - length i)%nat with 0%nat by lia. reflexivity.
Qed.

Lemma sign_any_accepted : forall (E : env) (L : env_laws E) m m' (pp : pubparam E) pk sk ssk rest init last msg s,
  pp_ok pp -> g2_insub (pk_pk pk) = true ->
  sec_ssk sk = ssk :: rest -> sk_t ssk = sec_time sk -> sk_hvec ssk = init ++ [last] ->
  g2_insub (sk_g2r ssk) = true -> g1_insub (sk_hpoly ssk) = true -> g1_insub last = true ->
  fst (sign_present m (sec_time sk) pp msg sk) = Ok s ->
  (verify m' s pk pp msg = Ok true <->
   exists v, node_at (pp_depth pp) (sec_time sk) v
     /\ pairing (pp_g2 pp) (g1_add (sk_hpoly ssk) (g1_mul (msg_scalar pp msg) last))
        = gt_mul (pairing (sk_g2r ssk) (sig_val pp v (msg_scalar pp msg))) (pairing (pk_pk pk) (pp_h pp))).
Proof.
  intros E L m m' pp pk sk ssk rest init last msg s Hpp Hpk Es Et Ehv Hg2 Hhp Hla Hs.
  destruct (sign_any_key E L m pp sk (sec_time sk) msg Hpp) as [_ H]. rewrite Hs in H.
  destruct H as (Hc & _ & _ & ssk' & rest' & v & init' & last' & Es' & Hn & Ehv' & Hsig).
  rewrite Es in Es'. injection Es' as <- <-. rewrite Ehv in Ehv'. apply app_inj_tail in Ehv' as [_ <-].
  cbv zeta in Hsig. set (k := spec_scalar _ _ _) in Hsig. set (M := msg_scalar pp msg) in *.
  rewrite Et in Hn. pose proof (sig_val_insub L pp v M Hpp) as HF. pose proof (ppo_g2 pp Hpp) as Hg.
  rewrite (verify_spec L) by auto. rewrite Hsig. cbn [sig_cs sig_time sig_1 sig_2]. fold M.
  assert (Hkey : pairing (pp_g2 pp) (g1_add (g1_add (sk_hpoly ssk) (g1_mul M last)) (g1_mul k (sig_val pp v M)))
                 = gt_mul (pairing (g2_mul k (pp_g2 pp)) (sig_val pp v M)) (pairing (pp_g2 pp) (g1_add (sk_hpoly ssk) (g1_mul M last)))).
  { rewrite (lp_add_r E L), (pairing_mul_swap L); auto using (g1_mul_insub L), (l1_sub_add E L). apply (lt_comm E L). }
  assert (Hkey2 : forall q, gt_mul (pairing (g2_add (sk_g2r ssk) (g2_mul k (pp_g2 pp))) (sig_val pp v M)) q
                  = gt_mul (pairing (g2_mul k (pp_g2 pp)) (sig_val pp v M)) (gt_mul (pairing (sk_g2r ssk) (sig_val pp v M)) q)).
  { intros q. rewrite (lp_add_l E L) by auto using (g2_mul_insub L).
    rewrite (lt_comm E L (pairing (sk_g2r ssk) _)), <- (lt_assoc E L). reflexivity. }
  split.
  - intros (_ & _ & _ & _ & v' & Hn' & He). rewrite (node_at_fun _ _ _ _ Hn' Hn) in He. exists v. split; [exact Hn|].
    rewrite Hkey, Hkey2 in He. apply (gt_cancel L) in He; auto using (g2_mul_insub L).
  - intros (v' & Hn' & He). rewrite (node_at_fun _ _ _ _ Hn' Hn) in He.
    split; [apply valid_cs_iff, Hc|]. split; [reflexivity|]. split; [apply (l2_sub_add E L); auto using (g2_mul_insub L)|].
    split; [apply (l1_sub_add E L); auto using (g1_mul_insub L), (l1_sub_add E L)|]. exists v. split; [exact Hn|].
    rewrite Hkey, Hkey2, He. reflexivity.
Qed.

(** * C68 *)
Lemma many_signers : forall (E : env) (L : env_laws E) m m' (pp : pubparam E) (l : list (pubkey E * proof E * seckey E)) t msg,
  pp_ok pp -> pp_g2 pp = g2_one -> l <> [] ->
  Forall (fun x => (exists seed sk0 ops, key_gen seed pp = Ok (fst (fst x), sk0, snd (fst x)) /\ snd (run m pp ops sk0) = snd x)
                   /\ sec_time (snd x) = t) l ->
  Forall (fun x => pk_validate (fst (fst x)) (snd (fst x)) = true) l
  /\ exists sigs agg, Forall2 (fun x s => sign_present m t pp msg (snd x) = (Ok s, snd x)) l sigs
       /\ aggregate sigs = Ok agg /\ verify_aggregated m' agg (map (fun x => fst (fst x)) l) pp msg = Ok true.
Proof.
  intros E L m m' pp l t msg Hpp Hg Hne Hf. split.
  { eapply Forall_impl; [|exact Hf]. intros [[pk po] sk] [(seed & sk0 & ops & Hk & _) _]. cbn [fst snd] in *.
    eapply (keygen_pop E L); eauto. }
  assert (Hex : exists sigs, Forall2 (fun x s => sign_present m t pp msg (snd x) = (Ok s, snd x)) l sigs
     /\ Forall (fun sp => verify m (fst sp) (snd sp) pp msg = Ok true /\ sig_time (fst sp) = t
                /\ pk_cs (snd sp) = pp_cs pp /\ g2_insub (pk_pk (snd sp)) = true)
          (combine sigs (map (fun x => fst (fst x)) l)) /\ length sigs = length l).
  { clear Hne. induction Hf as [|[[pk po] sk] l [(seed & sk0 & ops & Hk & Hr) Ht] _ (sigs & IH1 & IH2 & IH3)].
    - exists []. repeat constructor.
    - cbn [fst snd] in *. assert (Hre : reachable m pp pk sk) by (exists seed, sk0, po, ops; auto).
      destruct (reachable_good L m pp pk sk Hpp Hre) as (_ & _ & _ & _ & Hcs).
      destruct (signature_value E L m m pp pk sk msg Hpp Hre) as (x & v & r & rest & Hpk & Hn & _ & Hs). rewrite Ht in *.
      eexists. split; [constructor; [exact Hs|exact IH1]|]. cbn [map combine fst snd length]. split; [|lia].
      constructor; [|exact IH2]. cbn [fst snd]. rewrite Hpk. split; [apply (verify_honest L); auto|].
      split; [reflexivity|]. split; [reflexivity|apply (g2_mul_insub L), Hpp]. }
  destruct Hex as (sigs & H1 & H2 & H3).
  destruct (aggregate_verifies E L m m' pp (combine sigs (map (fun x => fst (fst x)) l)) t msg Hpp) with (2 := H2) as (agg & Ha & Hv).
  { intros Hc. apply (f_equal (@length _)) in Hc. rewrite combine_length, map_length, H3, Nat.min_id in Hc. destruct l; [auto|discriminate]. }
  assert (Hcf : forall (a : list (signature E)) (b : list (pubkey E)), length a = length b ->
                map fst (combine a b) = a /\ map snd (combine a b) = b).
  { clear. induction a as [|x a IH]; intros [|y b] H; try discriminate; [auto|]. cbn in *. destruct (IH b) as [-> ->]; auto. }
  destruct (Hcf sigs (map (fun x => fst (fst x)) l)) as [E1 E2]; [rewrite map_length; exact H3|]. rewrite E1 in Ha. rewrite E2 in Hv.
  eauto.
Qed.

(** * C69 *)
Lemma init_by_randomization : forall (E : env) (L : env_laws E) m (pp : pubparam E) alpha r,
  pp_ok pp -> ssk_init_from_randomization m pp alpha r = ssk_init pp alpha r
              /\ exists s, ssk_init pp alpha r = Ok s.
Proof.
  intros E L m pp alpha r Hpp. pose proof (ppo_depth pp Hpp) as Hd. pose proof (ppo_len pp Hpp) as Hlen.
  unfold ssk_init. rewrite (nth_res_ok _ _ g1_zero) by lia. cbn [bind]. split; [|eauto].
  unfold ssk_init_from_randomization, run_mut, randomization, sbind, sget, slift, sput, ssk_time_vec.
  cbn [sk_t sk_g2r sk_hpoly sk_hvec].
  rewrite (proj2 (tv_init_ok m (pp_depth pp) 1 [] ltac:(lia)) (root_node (pp_depth pp) ltac:(lia))). cbn [tv_vec length poly_loop].
  rewrite (nth_res_ok _ _ g1_zero) by lia. rewrite hv_loop_ok by (rewrite repeat_length; lia).
  cbn [sk_t sk_g2r sk_hpoly sk_hvec]. f_equal. f_equal; [apply (l2_zero E L)|apply (l1_comm E L)|].
  rewrite skipn_firstn_comm. replace (pp_depth pp + 1 - 1)%nat with (pp_depth pp) by lia. replace (0 + 1)%nat with 1%nat by lia.
  assert (Hg : forall n (h : list (G1 E)), (n <= length h)%nat ->
    map (fun xh => g1_add (fst xh) (g1_mul r (snd xh))) (combine (repeat g1_zero n) h) = map (g1_mul r) (firstn n h)).
  { clear - L. induction n as [|n IH]; intros [|x h] Hl; cbn [length] in Hl; try lia; [reflexivity|reflexivity|].
    cbn [repeat combine map firstn fst snd]. rewrite (l1_zero E L), IH by lia. reflexivity. }
  apply Hg. rewrite skipn_length. lia.
Qed.
