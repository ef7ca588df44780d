(** Lemmas behind Properties_Verify.v: key validation and equality of objects. *)
From Verif Require Import Base Env NMod GroupFacts Time SpecTime TimeFacts TimeProps Hkdf Prng SpecPrng PrngFacts
  SubKey SecretKey Keys Sig SpecKey SubKeyFacts UpdateFacts KeyFacts HistoryFacts SpecSig.
From Coq Require Import ZifyBool ZifyNat ZifyN.
Local Open Scope N_scope.
Local Arguments N.add : simpl never.
Local Arguments N.mul : simpl never.
Local Arguments N.sub : simpl never.
Local Arguments pow2 : simpl never.

(** * Validation (C43) *)
Lemma tv_init_total m d t : (d < 64)%nat ->
  (exists v, node_at d t v /\ tv_init m t d = Ok (TimeVec t v)) \/ ((forall v, ~ node_at d t v) /\ exists e, tv_init m t d = Err e).
Proof.
  intros Hd. destruct (N.le_gt_cases 1 t) as [H1|H1]; [destruct (N.le_gt_cases t (last_time d)) as [H2|H2]|].
  - left. apply tv_init_ex; auto.
  - right. split; [|eexists; apply tv_init_err; auto; lia]. intros v Hn. apply node_at_range in Hn. lia.
  - right. split; [|eexists; apply tv_init_err; auto; lia]. intros v Hn. apply node_at_range in Hn. lia.
Qed.

Lemma ssk_validate_spec {E} (L : env_laws E) m (pp : pubparam E) s pk :
  pp_ok pp -> g2_insub (pk_pk pk) = true -> g2_insub (sk_g2r s) = true -> g1_insub (sk_hpoly s) = true ->
  exists b, ssk_validate m s pk pp = Ok b /\ (b = true <-> ssk_equation pp pk s).
Proof.
  intros Hpp Hpk H1 H2. pose proof (ppo_depth pp Hpp) as Hd. pose proof (ppo_len pp Hpp) as Hlen.
  unfold ssk_validate, ssk_equation.
  destruct (tv_init_total m (pp_depth pp) (sk_t s) ltac:(lia)) as [(v & Hn & ->)|(Hno & e & ->)].
  - destruct (node_at_turn _ _ _ Hn) as [Ht Hl]. cbn [tv_vec].
    rewrite (nth_res_ok _ _ g1_zero) by lia. cbn [bind].
    rewrite (poly_loop_mul_lin L) by lia. cbn [bind].
    change (skipn (0 + 1)) with (@skipn (G1 E) 1). fold (node_val pp v).
    eexists. split; [reflexivity|]. pose proof (node_val_insub L pp v Hpp).
    rewrite (pairing_check3 L _ _ _ _ _ _ pairing_check pairing_check_spec); auto; try apply Hpp.
    split; [eauto|]. intros (v' & Hn' & He). rewrite (node_at_fun _ _ _ _ Hn Hn'). exact He.
  - exists false. split; [reflexivity|]. split; [discriminate|]. intros (v & Hn & _). destruct (Hno v Hn).
Qed.

Lemma validate_loop_spec {E} (L : env_laws E) m (pp : pubparam E) pk : pp_ok pp -> g2_insub (pk_pk pk) = true ->
  forall l gl, Forall (fun s => g2_insub (sk_g2r s) = true /\ g1_insub (sk_hpoly s) = true) l ->
  (validate_loop m pk pp l gl = Ok true <->
   (exists rest, map tv_time gl = map sk_t l ++ rest) /\ Forall (ssk_equation pp pk) l).
Proof.
  intros Hpp Hpk. induction l as [|s l IH]; intros gl Hf; cbn [validate_loop].
  - split; [|reflexivity]. intros _. split; [exists (map tv_time gl); reflexivity|constructor].
  - inversion Hf as [|? ? [H1 H2] Hf']; subst.
    destruct (ssk_validate_spec L m pp s pk Hpp Hpk H1 H2) as (b & -> & Hb). cbn [bind].
    destruct b; cbn [negb].
    + destruct gl as [|tv gl].
      * split; [discriminate|]. intros [[rest Hr] _]. discriminate.
      * destruct (N.eqb_spec (sk_t s) (tv_time tv)) as [He|Hne]; cbn [negb].
        -- rewrite IH by exact Hf'. split.
           ++ intros [[rest Hr] Heq]. split; [exists rest; cbn [map app]; congruence|]. constructor; [apply Hb; reflexivity|exact Heq].
           ++ intros [[rest Hr] Heq]. cbn [map app] in Hr. inversion Heq; subst. split; [|assumption]. exists rest. congruence.
        -- split; [discriminate|]. intros [[rest Hr] _]. cbn [map app] in Hr. congruence.
    + split; [discriminate|]. intros [_ Heq]. inversion Heq as [|? ? Hs _]; subst. apply Hb in Hs. discriminate.
Qed.

Lemma validate_iff : forall (E : env) (L : env_laws E) m (pp : pubparam E) sk pk,
  pp_ok pp -> g2_insub (pk_pk pk) = true ->
  Forall (fun s => g2_insub (sk_g2r s) = true /\ g1_insub (sk_hpoly s) = true) (sec_ssk sk) ->
  (sk_validate m sk pk pp = Ok true <->
   sec_cs sk = pp_cs pp /\ pk_cs pk = pp_cs pp /\ 1 <= sec_time sk <= last_time (pp_depth pp)
   /\ (exists rest, tiling (pp_depth pp) (sec_time sk) (map sk_t (sec_ssk sk) ++ rest))
   /\ Forall (ssk_equation pp pk) (sec_ssk sk)).
Proof.
  intros E L m pp sk pk Hpp Hpk Hf. pose proof (ppo_depth pp Hpp) as Hd. unfold sk_validate.
  destruct (N.eqb_spec (sec_cs sk) (pk_cs pk)) as [Hc1|Hc1]; cbn [negb orb].
  2:{ split; [discriminate|]. intros (H1 & H2 & _). congruence. }
  destruct (N.eqb_spec (sec_cs sk) (pp_cs pp)) as [Hc2|Hc2]; cbn [negb].
  2:{ split; [discriminate|]. intros (H1 & H2 & _). congruence. }
  destruct (tv_init_total m (pp_depth pp) (sec_time sk) ltac:(lia)) as [(v & Hn & ->)|(Hno & e & ->)].
  - destruct (gamma_list_spec m (pp_depth pp) _ v ltac:(lia) Hn) as (pl & -> & _ & Htil & _).
    rewrite (validate_loop_spec L m pp pk Hpp Hpk _ _ Hf). rewrite map_map. change (map (fun x => tv_time (mk_tv (pp_depth pp) x)) pl) with (map (ptime (pp_depth pp)) pl).
    pose proof (node_at_range _ _ _ Hn) as Hr.
    split.
    + intros [[rest Hrest] Heq]. rewrite Hrest in Htil. repeat split; try congruence; try lia; eauto.
    + intros (_ & _ & _ & [rest Hrest] & Heq). split; [|exact Heq]. exists rest.
      apply (tiling_fun _ _ _ _ Htil Hrest).
  - split; [discriminate|]. intros (_ & _ & Ht & _). destruct (node_at_ex _ _ Ht) as [v Hn]. destruct (Hno v Hn).
Qed.

(** With an honest public key the validated part of a sub key has the honest form. *)
Lemma validated_ssk_form : forall (E : env) (L : env_laws E) (pp : pubparam E) pk s x,
  pp_ok pp -> pp_g2 pp = g2_one -> pk_pk pk = g2_mul x (pp_g2 pp) ->
  g2_insub (sk_g2r s) = true -> g1_insub (sk_hpoly s) = true ->
  (ssk_equation pp pk s <->
   exists v r, node_at (pp_depth pp) (sk_t s) v /\ sk_g2r s = sk_g2r (honest_ssk pp x (sk_t s) v r)
               /\ sk_hpoly s = sk_hpoly (honest_ssk pp x (sk_t s) v r)).
Proof.
  intros E L pp pk s x Hpp Hg Hpk H1 H2. unfold ssk_equation. rewrite Hpk. cbn [honest_ssk sk_g2r sk_hpoly]. split.
  - intros (v & Hn & He). destruct (l2_gen E L _ H1) as [r Hr]. rewrite <- Hg in Hr. exists v, r. split; [exact Hn|]. split; [exact Hr|].
    pose proof (node_val_insub L pp v Hpp) as Hv.
    rewrite Hr, <- (pairing_honest L) in He; auto; try apply Hpp. apply (pairing_inj_r L) in He; auto; try apply Hpp.
    + apply (l1_sub_add E L); apply (g1_mul_insub L); [apply Hpp|exact Hv].
    + rewrite Hg. apply (l2_one_nz E L).
  - intros (v & r & Hn & -> & ->). exists v. split; [exact Hn|].
    apply (pairing_honest L); try apply Hpp. apply (node_val_insub L), Hpp.
Qed.

(** * Validation misses (C44) *)
Lemma validate_empty : forall (E : env) m (pp : pubparam E) pk t g,
  (1 <= pp_depth pp < 64)%nat -> pk_cs pk = pp_cs pp -> 1 <= t <= last_time (pp_depth pp) ->
  sk_validate m (SecKey (pp_cs pp) t [] g) pk pp = Ok true.
Proof.
  intros E m pp pk t g Hd Hc Ht. unfold sk_validate. cbn [sec_cs sec_time sec_ssk]. rewrite Hc, N.eqb_refl. cbn [negb orb].
  destruct (tv_init_ex m (pp_depth pp) t ltac:(lia) Ht) as (v & Hn & ->).
  destruct (gamma_list_spec m (pp_depth pp) _ v ltac:(lia) Hn) as (pl & -> & _). reflexivity.
Qed.

Lemma validate_prefix : forall (E : env) m (pp : pubparam E) pk cs t l l' g,
  sk_validate m (SecKey cs t (l ++ l') g) pk pp = Ok true -> sk_validate m (SecKey cs t l g) pk pp = Ok true.
Proof.
  intros E m pp pk cs t l l' g. unfold sk_validate. cbn [sec_cs sec_time sec_ssk].
  destruct (_ || _); [discriminate|]. destruct (tv_init m t (pp_depth pp)) as [tv| |]; [|discriminate|discriminate].
  destruct (gamma_list m tv (pp_depth pp)) as [gl| |]; [|discriminate|discriminate].
  revert gl. induction l as [|s l IH]; intros gl; cbn [app validate_loop]; [reflexivity|].
  destruct (ssk_validate m s pk pp) as [[|]| |]; cbn [bind negb]; try discriminate.
  destruct gl as [|tv' gl]; [discriminate|]. destruct (negb _); [discriminate|]. apply IH.
Qed.

Lemma validate_ignores_vectors : forall (E : env) m (pp : pubparam E) pk cs t l l' g,
  Forall2 (fun s s' => sk_t s' = sk_t s /\ sk_g2r s' = sk_g2r s /\ sk_hpoly s' = sk_hpoly s) l l' ->
  sk_validate m (SecKey cs t l' g) pk pp = sk_validate m (SecKey cs t l g) pk pp.
Proof.
  intros E m pp pk cs t l l' g H. unfold sk_validate. cbn [sec_cs sec_time sec_ssk].
  destruct (_ || _); [reflexivity|]. destruct (tv_init m t (pp_depth pp)) as [tv| |]; [|reflexivity|reflexivity].
  destruct (gamma_list m tv (pp_depth pp)) as [gl| |]; [|reflexivity|reflexivity].
  revert gl. induction H as [|s s' l l' (H1 & H2 & H3) _ IH]; intros gl; [reflexivity|]. cbn [validate_loop].
  unfold ssk_validate at 1. rewrite H1, H2, H3. fold (ssk_validate m s pk pp).
  destruct (ssk_validate m s pk pp) as [[|]| |]; cbn [bind negb]; try reflexivity.
  destruct gl as [|tv' gl]; [reflexivity|]. destruct (negb _); [reflexivity|]. apply IH.
Qed.

Lemma validate_extra_panics : forall (E : env) (L : env_laws E) m (pp : pubparam E) pk sk s,
  pp_ok pp -> sk_validate m sk pk pp = Ok true ->
  tiling (pp_depth pp) (sec_time sk) (map sk_t (sec_ssk sk)) -> ssk_validate m s pk pp = Ok true ->
  sk_validate m (SecKey (sec_cs sk) (sec_time sk) (sec_ssk sk ++ [s]) (sec_prng sk)) pk pp = Panic P_INDEX.
Proof.
  intros E L m pp pk sk s Hpp. unfold sk_validate. cbn [sec_cs sec_time sec_ssk]. pose proof (ppo_depth pp Hpp) as Hd.
  destruct (_ || _); [discriminate|].
  destruct (tv_init_total m (pp_depth pp) (sec_time sk) ltac:(lia)) as [(v & Hn & ->)|(Hno & e & ->)]; [|discriminate].
  destruct (gamma_list_spec m (pp_depth pp) _ v ltac:(lia) Hn) as (pl & -> & _ & Htil & _).
  intros Hv Ht Hs. pose proof (tiling_fun _ _ _ _ Htil Ht) as Hm.
  replace (map (ptime (pp_depth pp)) pl) with (map tv_time (map (mk_tv (pp_depth pp)) pl)) in Hm by (rewrite map_map; reflexivity).
  revert Hv Hm. clear - Hs. generalize (map (mk_tv (pp_depth pp)) pl) as gl.
  induction (sec_ssk sk) as [|a l IH]; intros gl Hv Hm; cbn [app validate_loop map] in *.
  - rewrite Hs. destruct gl; [reflexivity|discriminate].
  - destruct (ssk_validate m a pk pp) as [[|]| |]; cbn [bind negb] in *; try discriminate.
    destruct gl as [|tv gl]; [discriminate|]. injection Hm as _ Hm. destruct (negb _); [discriminate|]. apply IH; auto.
Qed.

(** * Equality of objects (C52) *)
Lemma g1list_eqb_iff {E} (L : env_laws E) : forall (a b : list (G1 E)), g1list_eqb a b = true <-> a = b.
Proof.
  induction a as [|x a IH]; intros [|y b]; cbn [g1list_eqb]; try (split; congruence).
  rewrite andb_true_iff, (l1_eqb E L), IH. split; [intros [-> ->]; reflexivity|intros [= -> ->]; auto].
Qed.
Lemma ssk_eqb_iff {E} (L : env_laws E) (a b : subkey E) : ssk_eqb a b = true <-> a = b.
Proof.
  unfold ssk_eqb. rewrite !andb_true_iff, N.eqb_eq, (l2_eqb E L), (l1_eqb E L), (g1list_eqb_iff L).
  destruct a, b; cbn. split; [intros [[[-> ->] ->] ->]; reflexivity|intros [= -> -> -> ->]; auto].
Qed.
Lemma ssks_eqb_iff {E} (L : env_laws E) : forall (a b : list (subkey E)), ssks_eqb a b = true <-> a = b.
Proof.
  induction a as [|x a IH]; intros [|y b]; cbn [ssks_eqb]; try (split; congruence).
  rewrite andb_true_iff, (ssk_eqb_iff L), IH. split; [intros [-> ->]; reflexivity|intros [= -> ->]; auto].
Qed.

Lemma seckey_equality : forall (E : env) (L : env_laws E) (a b : seckey E), sk_eqb a b = true <-> a = b.
Proof.
  intros E L a b. unfold sk_eqb. destruct (Nat.eqb_spec (length (sec_ssk a)) (length (sec_ssk b))) as [Hl|Hl]; cbn [negb].
  2:{ split; [discriminate|]. intros ->. contradiction. }
  destruct (ssks_eqb (sec_ssk a) (sec_ssk b)) eqn:Es; cbn [negb].
  - apply (ssks_eqb_iff L) in Es. unfold prng_eqb. rewrite !andb_true_iff, !N.eqb_eq, bytes_eqb_eq.
    destruct a, b; cbn in *. split; [intros [[-> ->] ->]; congruence|intros [= -> -> -> ->]; auto].
  - split; [discriminate|]. intros ->. rewrite (proj2 (ssks_eqb_iff L _ _) eq_refl) in Es. discriminate.
Qed.

Lemma pubkey_equality : forall (E : env) (L : env_laws E) (a b : pubkey E), pk_eqb a b = true <-> a = b.
Proof.
  intros E L a b. unfold pk_eqb. rewrite andb_true_iff, N.eqb_eq, (l2_eqb E L).
  destruct a, b; cbn. split; [intros [-> ->]; reflexivity|intros [= -> ->]; auto].
Qed.

Lemma signature_equality : forall (E : env) (L : env_laws E) (a b : signature E),
  sig_eqb a b = true <-> sig_1 a = sig_1 b /\ sig_2 a = sig_2 b.
Proof. intros E L a b. unfold sig_eqb. rewrite andb_true_iff, (l2_eqb E L), (l1_eqb E L). reflexivity. Qed.
