(** Lemmas behind Properties_Sub.v: randomness of updates and algebra of sub keys. *)
From Verif Require Import Base Env NMod GroupFacts Time SpecTime TimeFacts TimeProps Hkdf Prng SpecPrng PrngFacts
  SubKey SecretKey Keys Sig IO Serdes Api SpecKey SubKeyFacts SpecUpdate UpdateFacts KeyFacts SpecSer IOFacts SerFacts
  HistoryFacts SpecDerive ShapeFacts KeyProps SubProps.
From Coq Require Import ZifyBool ZifyNat ZifyN.
Local Open Scope N_scope.
Local Arguments N.add : simpl never.
Local Arguments N.mul : simpl never.
Local Arguments N.sub : simpl never.
Local Arguments pow2 : simpl never.

(** * Randomness of an update (C49) *)
Lemma fresh_list_false {E} (pp : pubparam E) x r old : forall l i g0 ks g',
  spec_fresh pp x r old false l (draws (sha512 E) i g0) = Some (ks, g') ->
  ks = map (fun ie => honest_ssk pp x (tv_time (snd ie)) (tv_vec (snd ie)) (r + added (sha512 E) g0 (fst ie)))
           (combine (seq (S i) (length l)) l).
Proof.
  induction l as [|tv l IH]; intros i g0 ks g' H; cbn [spec_fresh] in H.
  - injection H as <- _. reflexivity.
  - cbv zeta in H. destruct (prng_eqb _ old); [discriminate|].
    destruct (spec_fresh pp x r old false l _) as [[ks' g1]|] eqn:E0; [|discriminate].
    injection H as <- _. change (spec_next (sha512 E) (draws (sha512 E) i g0) DOM_SEP_SK_UPDATE) with (draws (sha512 E) (S i) g0) in E0.
    apply IH in E0. cbn [length seq combine map fst snd added]. rewrite E0. reflexivity.
Qed.
Lemma fresh_list {E} (pp : pubparam E) x r old l g ks g' :
  spec_fresh pp x r old true l g = Some (ks, g') ->
  ks = map (fun ie => honest_ssk pp x (tv_time (snd ie)) (tv_vec (snd ie)) (r + added (sha512 E) g (fst ie)))
           (combine (seq 0 (length l)) l).
Proof.
  destruct l as [|tv l]; cbn [spec_fresh]; intros H.
  - injection H as <- _. reflexivity.
  - destruct (spec_fresh pp x r old false l g) as [[ks' g1]|] eqn:E0; [|discriminate].
    injection H as <- _. apply (fresh_list_false pp x r old l 0 g) in E0.
    cbn [length seq combine map fst snd added]. rewrite N.add_0_r, E0. reflexivity.
Qed.

Lemma tiling_length_le d t l : (1 <= d < 64)%nat -> 1 <= t <= last_time d -> tiling d t l -> (length l <= d)%nat.
Proof.
  intros Hd Ht Hl. destruct (tv_init_ex Debug d t ltac:(lia) Ht) as (v & Hn & _).
  destruct (gamma_list_spec Debug d t v ltac:(lia) Hn) as (pl & _ & _ & Htil & Hlen & _).
  rewrite (tiling_fun _ _ _ _ Hl Htil), map_length. exact Hlen.
Qed.

Lemma update_randomness : forall (E : env) (L : env_laws E) m m' (pp : pubparam E) pk sk t seed sk',
  pp_ok pp -> reachable m pp pk sk -> update m' pp t seed sk = (Ok tt, sk') ->
  exists x td vd r nodes kept,
    pk_pk pk = g2_mul x (pp_g2 pp)
    /\ In (honest_ssk pp x td vd r) (sec_ssk sk)
    /\ sec_ssk sk'
       = map (fun ie => honest_ssk pp x (tv_time (snd ie)) (tv_vec (snd ie))
                          (r + added (sha512 E) (spec_reseed sk seed) (fst ie)))
             (combine (seq 0 (length nodes)) nodes) ++ kept
    /\ (1 <= length nodes)%nat /\ (length nodes + length kept <= pp_depth pp)%nat
    /\ Forall (fun tv => node_at (pp_depth pp) (tv_time tv) (tv_vec tv)) nodes
    /\ sec_prng sk' = draws (sha512 E) (length nodes - 1) (spec_reseed sk seed).
Proof.
  intros E L m m' pp pk sk t seed sk' Hpp Hr Hu.
  destruct (reachable_good L m pp pk sk Hpp Hr) as (x & _ & Hpk & Hg & _).
  pose proof (ppo_depth pp Hpp) as Hd. pose proof (gsk_time _ _ _ Hg) as Htime.
  assert (Ht : sec_time sk < t <= last_time (pp_depth pp)).
  { pose proof (update_cases L m' pp x sk t seed Hpp Hg) as H. destruct (in_range pp sk t) eqn:Er.
    - unfold in_range in Er. lia.
    - rewrite Hu in H. discriminate. }
  destruct (update_good L m' pp x sk t seed Hpp Hg Ht) as (pre & ta & va & r & post & [Hl Hn Hc Hpre Htil Hpost] & Hcase).
  assert (Hin : In (honest_ssk pp x ta va r) (sec_ssk sk)) by (rewrite Hl; apply in_or_app; right; left; reflexivity).
  destruct Hcase as [[He Hu']|[Hlt (tv & gpre & gpost & Htv & Hgl & [gpre' Hgp] & Ht1 & _ & Hnodes & Hu')]].
  - rewrite Hu in Hu'. injection Hu' as ->. exists x, ta, va, r, [TimeVec ta va], post.
    cbn [length seq combine map fst snd added app tv_time tv_vec sec_ssk sec_prng]. rewrite N.add_0_r, Hpk.
    repeat split; auto.
    + rewrite He in *. rewrite <- (map_length sk_t post).
      assert (Ht2 : tiling (pp_depth pp) t (t :: map sk_t post)) by (econstructor; [exact Hn|exact Htil]).
      apply tiling_length_le in Ht2; [cbn [length] in Ht2; lia|lia|lia].
  - destruct (spec_fresh pp x r (sec_prng sk) true gpre (spec_reseed sk seed)) as [[ks g']|] eqn:Ef;
      rewrite Hu in Hu'; [|discriminate]. injection Hu' as ->.
    exists x, ta, va, r, gpre, post. cbn [sec_ssk sec_prng].
    split; [rewrite Hpk; reflexivity|]. split; [exact Hin|]. split; [rewrite (fresh_list _ _ _ _ _ _ _ _ Ef); reflexivity|].
    split; [rewrite Hgp; cbn; lia|]. split.
    { apply tiling_length_le in Ht1; [|lia|lia]. rewrite app_length, !map_length in Ht1. exact Ht1. }
    split; [eapply Forall_impl; [|exact Hnodes]; cbn; tauto|]. apply (spec_fresh_some _ _ _ _ _ _ _ _ Ef).
Qed.

(** The bound is attained: from the first time stamp to the leftmost leaf. *)
Lemma sibs_ones : forall k pre acc, length (sibs pre (repeat 1 k) acc) = (k + length acc)%nat.
Proof.
  induction k as [|k IH]; intros pre acc; cbn [repeat sibs]; [reflexivity|].
  rewrite IH. cbn [N.eqb Pos.eqb length]. lia.
Qed.
Lemma ptime_ones : forall k d, (k < d)%nat -> ptime d (repeat 1 k) = N.of_nat k + 1.
Proof.
  induction k as [|k IH]; intros d Hk.
  - destruct d; [lia|reflexivity].
  - destruct d as [|d]; [lia|]. cbn [repeat ptime N.eqb Pos.eqb]. rewrite IH by lia. lia.
Qed.
Lemma tiling_depth_length d l : (1 <= d < 64)%nat -> tiling d (N.of_nat d) l -> length l = d.
Proof.
  intros Hd Hl.
  assert (Hv : valid_path d (repeat 1 (d - 1))).
  { split; [|rewrite repeat_length; lia]. apply Forall_forall. intros y Hy. apply repeat_spec in Hy. left. exact Hy. }
  assert (Ht : ptime d (repeat 1 (d - 1)) = N.of_nat d) by (rewrite ptime_ones by lia; lia).
  assert (Htil : tiling d (N.of_nat d) (map (ptime d) (repeat 1 (d - 1) :: sibs [] (repeat 1 (d - 1)) []))).
  { apply ptiling_tiling. rewrite <- Ht. apply (sibs_tiling d [] (repeat 1 (d - 1)) []); auto.
    unfold psize. simpl length. rewrite Nat.sub_0_r.
    replace (ptime d [] + (pow2 d - 1)) with (pow2 d); [constructor|].
    pose proof (pow2_pos d). destruct d; cbn [ptime]; lia. }
  rewrite (tiling_fun _ _ _ _ Hl Htil), map_length. cbn [length]. rewrite sibs_ones. cbn. lia.
Qed.

Lemma update_max_draws : forall (E : env) (L : env_laws E) m (pp : pubparam E) seed pk sk pop seed' sk',
  pp_ok pp -> (2 <= pp_depth pp)%nat -> key_gen seed pp = Ok (pk, sk, pop) ->
  update m pp (N.of_nat (pp_depth pp)) seed' sk = (Ok tt, sk') ->
  length (sec_ssk sk') = pp_depth pp
  /\ sec_prng sk' = draws (sha512 E) (pp_depth pp - 1) (spec_reseed sk seed').
Proof.
  intros E L m pp seed pk sk pop seed' sk' Hpp Hd2 Hk Hu. pose proof (ppo_depth pp Hpp) as Hd.
  destruct (key_gen_good L pp seed pk sk pop Hpp Hk) as (x & _ & _ & Hg & _ & _).
  destruct (keygen_master E L pp seed pk sk pop Hpp Hk) as (_ & _ & r0 & Hs).
  assert (Hone : sec_time sk = 1).
  { pose proof (gsk_til _ _ _ Hg) as Htil. rewrite Hs in Htil. inversion Htil; subst. reflexivity. }
  assert (Ht : sec_time sk < N.of_nat (pp_depth pp) <= last_time (pp_depth pp)).
  { pose proof (update_cases L m pp x sk (N.of_nat (pp_depth pp)) seed' Hpp Hg) as H. destruct (in_range _ _ _) eqn:Er.
    - unfold in_range in Er. lia.
    - rewrite Hu in H. discriminate. }
  pose proof (update_cases L m pp x sk (N.of_nat (pp_depth pp)) seed' Hpp Hg) as H.
  assert (Hlen : length (sec_ssk sk') = pp_depth pp).
  { destruct (in_range _ _ _); [|rewrite Hu in H; discriminate].
    destruct H as [(sk1 & Hu1 & Hg1 & Ht1)|[Hp _]]; [|rewrite Hu in Hp; discriminate].
    rewrite Hu in Hu1. injection Hu1 as <-. rewrite <- (map_length sk_t).
    apply tiling_depth_length; [exact Hd|]. rewrite <- Ht1. apply (gsk_til _ _ _ Hg1). }
  split; [exact Hlen|].
  destruct (update_good L m pp x sk (N.of_nat (pp_depth pp)) seed' Hpp Hg Ht) as (pre & ta & va & r & post & [Hl Hn Hc Hpre Htil Hpost] & Hcase).
  rewrite Hs in Hl.
  assert (Hsp : pre = [] /\ post = [] /\ ta = 1).
  { destruct pre as [|a pre]; cbn [app] in Hl.
    - injection Hl as Ha _ _ _ Hb. auto.
    - injection Hl as _ Hb. destruct pre; discriminate. }
  destruct Hsp as (-> & -> & ->).
  destruct Hcase as [[He Hu']|[Hlt (tv & gpre & gpost & Htv & Hgl & [gpre' Hgp] & Ht1 & _ & Hnodes & Hu')]].
  - lia.
  - destruct (spec_fresh pp x r (sec_prng sk) true gpre (spec_reseed sk seed')) as [[ks g']|] eqn:Ef;
      rewrite Hu in Hu'; [|discriminate]. injection Hu' as ->. cbn [sec_ssk sec_prng] in *.
    rewrite (spec_fresh_some _ _ _ _ _ _ _ _ Ef). rewrite app_nil_r in Hlen.
    rewrite (fresh_list _ _ _ _ _ _ _ _ Ef), map_length, combine_length, seq_length, Nat.min_id in Hlen.
    rewrite Hlen. reflexivity.
Qed.

(** * Algebra of sub keys (C50) *)
Lemma reachable_subkeys_honest : forall (E : env) (L : env_laws E) m (pp : pubparam E) pk sk,
  pp_ok pp -> reachable m pp pk sk ->
  exists x, x < fr_modulus /\ pk_pk pk = g2_mul x (pp_g2 pp)
  /\ forall s, In s (sec_ssk sk) ->
     exists v r, node_at (pp_depth pp) (sk_t s) v
       /\ sk_g2r s = g2_mul r (pp_g2 pp)
       /\ sk_hpoly s = g1_add (g1_mul x (pp_h pp)) (g1_mul r (node_val pp v))
       /\ length (sk_hvec s) = (pp_depth pp - length v)%nat
       /\ forall i, (i < pp_depth pp - length v)%nat ->
            nth i (sk_hvec s) g1_zero = g1_mul r (nth (length v + 1 + i) (pp_hlist pp) g1_zero).
Proof.
  intros E L m pp pk sk Hpp Hr. destruct (reachable_good L m pp pk sk Hpp Hr) as (x & Hx & Hpk & Hg & _).
  exists x. split; [exact Hx|]. split; [rewrite Hpk; reflexivity|].
  intros s Hs. pose proof (gsk_honest _ _ _ Hg) as Hh. rewrite Forall_forall in Hh.
  destruct (Hh s Hs) as (v & r & Hn & He). exists v, r. split; [exact Hn|]. rewrite He.
  cbn [honest_ssk sk_g2r sk_hpoly sk_hvec]. split; [reflexivity|]. split; [reflexivity|].
  pose proof (ppo_len pp Hpp). destruct (node_at_turn _ _ _ Hn) as [_ Hlv].
  split. { rewrite map_length, firstn_length, skipn_length. lia. }
  intros i Hi. rewrite (nth_indep _ g1_zero (g1_mul r g1_zero)).
  2:{ rewrite map_length, firstn_length, skipn_length. lia. }
  rewrite map_nth. f_equal. rewrite <- (firstn_skipn (length v + 1) (pp_hlist pp)) at 2.
  rewrite app_nth2; rewrite firstn_length; [|lia].
  rewrite Nat.min_l by lia. replace (length v + 1 + i - (length v + 1))%nat with i by lia.
  rewrite <- (firstn_skipn (pp_depth pp - length v) (skipn (length v + 1) (pp_hlist pp))) at 2.
  rewrite app_nth1; [reflexivity|]. rewrite firstn_length, skipn_length. lia.
Qed.

Lemma delegate_in_honest_form : forall (E : env) (L : env_laws E) m (pp : pubparam E) x t v r t' w,
  pp_ok pp -> node_at (pp_depth pp) t v -> node_at (pp_depth pp) t' (v ++ w) -> w <> [] ->
  delegate m t' (pp_depth pp) (honest_ssk pp x t v r) = (Ok tt, honest_ssk pp x t' (v ++ w) r).
Proof. intros E L m pp x t v r t' w Hpp Hn Hn' Hw. apply (delegate_honest L); auto. Qed.

Lemma randomize_in_honest_form : forall (E : env) (L : env_laws E) m (pp : pubparam E) x t v r k,
  pp_ok pp -> node_at (pp_depth pp) t v ->
  randomization m pp k (honest_ssk pp x t v r) = (Ok tt, honest_ssk pp x t v (r + k)).
Proof. intros E L m pp x t v r k Hpp Hn. apply (randomization_honest L); auto. Qed.

(** The next three hold for every sub key of the right shape, honest or not. *)
Lemma delegate_transitive : forall (E : env) (L : env_laws E) m (pp : pubparam E) s t u,
  pp_ok pp -> shape_ssk pp s ->
  strictly_below (pp_depth pp) (sk_t s) t -> strictly_below (pp_depth pp) t u ->
  exists s1 s2, delegate m t (pp_depth pp) s = (Ok tt, s1)
    /\ delegate m u (pp_depth pp) s1 = (Ok tt, s2) /\ delegate m u (pp_depth pp) s = (Ok tt, s2).
Proof.
  intros E L m pp s t u Hpp (v & Hn & Hl) (v1 & w & Hw & Hn1 & Ht) (v2 & w' & Hw' & Hn2 & Hu).
  pose proof (ppo_depth pp Hpp) as Hd.
  rewrite (node_at_fun _ _ _ _ Hn1 Hn) in *. rewrite (node_at_fun _ _ _ _ Hn2 Ht) in *. clear v1 v2 Hn1 Hn2.
  pose proof (node_at_turn _ _ _ Ht) as [_ Hlt]. pose proof (node_at_turn _ _ _ Hu) as [_ Hlu].
  rewrite !app_length in *.
  eexists _, _. split; [apply (delegate_general L m (pp_depth pp) s t v w); auto; lia|].
  split.
  - apply (delegate_general L m (pp_depth pp) _ u (v ++ w) w'); cbn [sk_t sk_hvec]; auto; try lia. rewrite skipn_length. lia.
  - cbn [sk_t sk_g2r sk_hpoly sk_hvec]. rewrite (delegate_general L m (pp_depth pp) s u v (w ++ w')); auto.
    + rewrite (lincomb_app L) by lia. rewrite skipn_skipn, app_length. rewrite (l1_assoc E L).
      replace (length w' + length w)%nat with (length w + length w')%nat by lia. reflexivity.
    + lia.
    + rewrite app_assoc. exact Hu.
    + intros H; apply app_eq_nil in H; tauto.
    + rewrite app_length. lia.
Qed.

Lemma combine_skipn {A B} : forall n (l : list A) (l' : list B), skipn n (combine l l') = combine (skipn n l) (skipn n l').
Proof.
  induction n as [|n IH]; intros l l'; [reflexivity|]. destruct l as [|a l]; [reflexivity|].
  destruct l' as [|b l']; cbn [skipn combine]; [destruct (skipn n l); reflexivity|apply IH].
Qed.

Lemma lincomb_combine {E} (L : env_laws E) r : forall w (hv hs : list (G1 E)), (length w <= length hv)%nat -> (length w <= length hs)%nat ->
  lincomb w (map (fun xh => g1_add (fst xh) (g1_mul r (snd xh))) (combine hv hs))
  = g1_add (lincomb w hv) (g1_mul r (lincomb w hs)).
Proof.
  induction w as [|a w IH]; intros hv hs H1 H2; cbn [lincomb]; [g1_solve L|].
  destruct hv as [|h hv]; cbn [length] in H1; [lia|]. destruct hs as [|g hs]; cbn [length] in H2; [lia|].
  cbn [combine map lincomb fst snd]. rewrite IH by lia. g1_solve L.
Qed.

Lemma delegate_randomize_commute : forall (E : env) (L : env_laws E) m (pp : pubparam E) s t k,
  pp_ok pp -> shape_ssk pp s -> strictly_below (pp_depth pp) (sk_t s) t ->
  exists s1 s2 s3, delegate m t (pp_depth pp) s = (Ok tt, s1) /\ randomization m pp k s1 = (Ok tt, s2)
    /\ randomization m pp k s = (Ok tt, s3) /\ delegate m t (pp_depth pp) s3 = (Ok tt, s2).
Proof.
  intros E L m pp s t k Hpp (v & Hn & Hl) (v1 & w & Hw & Hn1 & Ht).
  pose proof (ppo_depth pp Hpp) as Hd. pose proof (ppo_len pp Hpp) as Hlen.
  rewrite (node_at_fun _ _ _ _ Hn1 Hn) in *. clear v1 Hn1.
  pose proof (node_at_turn _ _ _ Ht) as [_ Hlt]. rewrite app_length in Hlt.
  eexists _, _, _. split; [apply (delegate_general L m (pp_depth pp) s t v w); auto; lia|].
  split. { apply (randomization_general L m pp _ (v ++ w) k); cbn [sk_t sk_hvec]; auto. rewrite app_length, skipn_length. lia. }
  split. { apply (randomization_general L m pp s v k); auto. lia. }
  rewrite (delegate_general L m (pp_depth pp) _ t v w); cbn [sk_t sk_g2r sk_hpoly sk_hvec]; auto.
  - f_equal. f_equal.
    + rewrite (lincomb_combine L) by (rewrite ?skipn_length; lia). rewrite (node_val_app L) by (auto; lia). g1_solve L.
    + rewrite skipn_map, combine_skipn, skipn_skipn, app_length. do 3 f_equal. lia.
  - lia.
  - rewrite map_length, combine_length, skipn_length. lia.
Qed.

Lemma combine_add {E} (L : env_laws E) j k : forall (hv hs : list (G1 E)),
  map (fun xh => g1_add (fst xh) (g1_mul k (snd xh))) (combine (map (fun xh => g1_add (fst xh) (g1_mul j (snd xh))) (combine hv hs)) hs)
  = map (fun xh => g1_add (fst xh) (g1_mul (j + k) (snd xh))) (combine hv hs).
Proof.
  induction hv as [|x hv IH]; intros [|h hs]; cbn [combine map fst snd]; try reflexivity. rewrite IH. f_equal. g1_solve L.
Qed.

Lemma randomize_additive : forall (E : env) (L : env_laws E) m (pp : pubparam E) s j k,
  pp_ok pp -> shape_ssk pp s ->
  exists s1 s2, randomization m pp j s = (Ok tt, s1) /\ randomization m pp k s1 = (Ok tt, s2)
    /\ randomization m pp (j + k) s = (Ok tt, s2).
Proof.
  intros E L m pp s j k Hpp (v & Hn & Hl). pose proof (ppo_len pp Hpp) as Hlen.
  destruct (node_at_turn _ _ _ Hn) as [_ Hlv].
  eexists _, _. split; [apply (randomization_general L m pp s v j); auto; lia|].
  split. { apply (randomization_general L m pp _ v k); cbn [sk_t sk_hvec]; auto. rewrite map_length, combine_length, skipn_length. lia. }
  cbn [sk_t sk_g2r sk_hpoly sk_hvec]. rewrite (randomization_general L m pp s v (j + k)) by (auto; lia).
  f_equal. f_equal.
  - rewrite (l2_mul_add E L), (l2_assoc E L). reflexivity.
  - g1_solve L.
  - symmetry. apply (combine_add L).
Qed.

(** * Failures (C51, C53) *)
Lemma delegate_failure_atomic : forall (E : env) m d (s : subkey E) t e s',
  delegate m t d s = (Err e, s') -> s' = s.
Proof.
  intros E m d s t e s' H. unfold delegate, sbind, sget, slift, sput in H.
  destruct (tv_init m (sk_t s) d) as [tv| |]; try (injection H as _ <-; reflexivity).
  destruct (tv_init m t d) as [tv'| |]; try (injection H as _ <-; reflexivity).
  destruct (negb (tv_is_prefix tv tv')); [injection H as _ <-; reflexivity|].
  destruct (del_loop (sk_hvec s) _ (sk_hpoly s)) as [o hp] eqn:Ed. destruct o; try discriminate.
  exfalso. clear H. revert Ed. generalize (skipn (length (tv_vec tv)) (tv_vec tv')), (sk_hvec s), (sk_hpoly s).
  induction l as [|a l IH]; intros hv hp0; cbn [del_loop]; [discriminate|]. destruct hv; [discriminate|]. apply IH.
Qed.

Lemma randomization_failure : forall (E : env) m (pp : pubparam E) (s : subkey E) k,
  (1 <= pp_depth pp < 64)%nat -> ~ (1 <= sk_t s <= last_time (pp_depth pp)) ->
  exists e, randomization m pp k s
  = (Err e, SubKey (sk_t s) (g2_add (sk_g2r s) (g2_mul k (pp_g2 pp))) (sk_hpoly s) (sk_hvec s)).
Proof.
  intros E m pp s k Hd Ht. unfold randomization, sbind, sget, slift, sput, ssk_time_vec. cbn [sk_t sk_g2r sk_hpoly sk_hvec].
  rewrite tv_init_out by (auto; lia). eauto.
Qed.

Lemma update_shape_no_panic : forall (E : env) (L : env_laws E) m (pp : pubparam E) sk t seed,
  pp_ok pp -> shape_sk pp sk ->
  match fst (update m pp t seed sk) with
  | Ok _ => sec_time sk < t <= last_time (pp_depth pp) /\ shape_sk pp (snd (update m pp t seed sk))
            /\ sec_time (snd (update m pp t seed sk)) = t
  | Err e => e = E_TIME_STAMP /\ ~ (sec_time sk < t <= last_time (pp_depth pp)) /\ snd (update m pp t seed sk) = sk
  | Panic p => p = P_PRNG /\ snd (update m pp t seed sk) = sk
  end.
Proof.
  intros E L m pp sk t seed Hpp Hs. pose proof (ppo_depth pp Hpp) as Hd.
  destruct (N.lt_ge_cases (sec_time sk) t) as [Ha|Ha]; [destruct (N.le_gt_cases t (last_time (pp_depth pp))) as [Hb|Hb]|].
  - destruct (update_shape L m pp sk t seed Hpp Hs ltac:(lia)) as [(sk' & -> & Hs' & Ht)| ->]; cbn [fst snd]; auto.
  - rewrite update_time_err by (auto; try apply Hs; lia). cbn [fst snd]. split; [reflexivity|]. split; [lia|reflexivity].
  - rewrite update_time_err by (auto; try apply Hs; lia). cbn [fst snd]. split; [reflexivity|]. split; [lia|reflexivity].
Qed.
