(** Lemmas behind Properties_Sub.v. *)
From Coq Require Import Sorting.Sorted.
From Verif Require Import Base Env NMod GroupFacts Time SpecTime TimeFacts TimeProps Hkdf Prng SpecPrng PrngFacts
  SubKey SecretKey Keys Sig IO Serdes Api SpecKey SubKeyFacts SpecUpdate UpdateFacts KeyFacts SpecSer IOFacts SerFacts
  HistoryFacts SpecDerive ShapeFacts KeyProps.
From Coq Require Import ZifyBool ZifyNat ZifyN.
Local Open Scope N_scope.
Local Arguments N.add : simpl never.
Local Arguments N.mul : simpl never.
Local Arguments N.sub : simpl never.
Local Arguments pow2 : simpl never.

(** * Forward security, structural part (C13) *)
Lemma below_strict_trans d a b c : below d a b -> strictly_below d b c -> below d a c.
Proof.
  intros (va & w & Ha & Hb) (vb & w' & _ & Hb' & Hc). rewrite (node_at_fun _ _ _ _ Hb' Hb) in Hc.
  exists va, (w ++ w'). split; [exact Ha|]. rewrite app_assoc. exact Hc.
Qed.

Lemma past_not_covered : forall (E : env) (L : env_laws E) m m' (pp : pubparam E) pk sk s t,
  pp_ok pp -> reachable m pp pk sk -> In s (sec_ssk sk) -> t < sec_time sk ->
  ~ below (pp_depth pp) (sk_t s) t
  /\ exists e, delegate m' t (pp_depth pp) s = (Err e, s).
Proof.
  intros E L m m' pp pk sk s t Hpp Hr Hin Ht. destruct (reachable_good L m pp pk sk Hpp Hr) as (x & _ & _ & Hg & _).
  assert (Hnb : ~ below (pp_depth pp) (sk_t s) t).
  { intros Hb. pose proof (tiling_no_past _ _ _ _ _ (gsk_til _ _ _ Hg) (in_map sk_t _ _ Hin) Hb). lia. }
  split; [exact Hnb|].
  destruct (delegate_err m' (pp_depth pp) s t) as (e & He & _).
  - apply (ppo_depth pp Hpp).
  - intros (va & w & _ & H). apply Hnb. exists va, w. exact H.
  - exists e. exact He.
Qed.

Lemma randomization_time {E} m (pp : pubparam E) r s o s' : randomization m pp r s = (o, s') -> sk_t s' = sk_t s.
Proof.
  unfold randomization, sbind, sget, slift, sput, ssk_time_vec. cbn [sk_t sk_g2r sk_hpoly sk_hvec].
  destruct (tv_init m (sk_t s) (pp_depth pp)); [|intros [= _ <-]; reflexivity..].
  destruct (nth_res (pp_hlist pp) 0); [|intros [= _ <-]; reflexivity..].
  destruct (poly_loop (pp_hlist pp) 0 (tv_vec a) a0); [|intros [= _ <-]; reflexivity..].
  cbn [sk_t sk_g2r sk_hpoly sk_hvec]. destruct (hv_loop _ _ _ _). intros [= _ <-]. reflexivity.
Qed.

Lemma derivable_below {E} m (pp : pubparam E) held s :
  (pp_depth pp < 64)%nat -> Forall (fun a => 1 <= sk_t a <= last_time (pp_depth pp)) held ->
  derivable m pp held s -> exists a, In a held /\ below (pp_depth pp) (sk_t a) (sk_t s).
Proof.
  intros Hd Hh H. induction H as [s Hin|s t s' _ (a & Ha & Hb) Hdel|s r s' _ (a & Ha & Hb) Hrand].
  - exists s. split; [exact Hin|]. apply below_refl. rewrite Forall_forall in Hh. apply Hh, Hin.
  - exists a. split; [exact Ha|]. apply delegate_ok_below in Hdel as (Hs & -> & _); [|exact Hd].
    eapply below_strict_trans; eauto.
  - exists a. split; [exact Ha|]. rewrite (randomization_time _ _ _ _ _ _ Hrand). exact Hb.
Qed.

Lemma derived_not_past : forall (E : env) (L : env_laws E) m m' (pp : pubparam E) pk sk s,
  pp_ok pp -> reachable m pp pk sk -> derivable m' pp (sec_ssk sk) s -> sec_time sk <= sk_t s.
Proof.
  intros E L m m' pp pk sk s Hpp Hr Hd. destruct (reachable_good L m pp pk sk Hpp Hr) as (x & _ & _ & Hg & _).
  pose proof (gsk_til _ _ _ Hg) as Htil. pose proof (ppo_depth pp Hpp).
  apply derivable_below in Hd as (a & Ha & Hb); [|lia|].
  - apply (tiling_no_past _ _ _ _ _ Htil (in_map sk_t _ _ Ha) Hb).
  - apply tiling_nodes in Htil. rewrite Forall_map in Htil. exact Htil.
Qed.

(** ... and every time from the present on can be derived. *)
Lemma future_derivable : forall (E : env) (L : env_laws E) m m' (pp : pubparam E) pk sk t,
  pp_ok pp -> reachable m pp pk sk -> sec_time sk <= t <= last_time (pp_depth pp) ->
  exists s, derivable m' pp (sec_ssk sk) s /\ sk_t s = t.
Proof.
  intros E L m m' pp pk sk t Hpp Hr Ht. destruct (reachable_good L m pp pk sk Hpp Hr) as (x & _ & _ & Hg & _).
  destruct (tiling_cover _ _ _ t (gsk_til _ _ _ Hg) ltac:(lia)) as (ta & Hin & (va & w & Hna & Hn) & _).
  apply in_map_iff in Hin as (a & <- & Hin).
  destruct (list_eq_dec N.eq_dec w []) as [->|Hw].
  - rewrite app_nil_r in Hn. exists a. split; [apply der_held, Hin|]. apply (node_at_inj _ _ _ _ Hna Hn).
  - pose proof (gsk_honest _ _ _ Hg) as Hh. rewrite Forall_forall in Hh.
    destruct (honest_shape pp x a Hpp (Hh a Hin)) as (va' & Hna' & Hl).
    rewrite (node_at_fun _ _ _ _ Hna' Hna) in Hl.
    destruct (delegate_shape L m' pp a t va w Hpp Hna Hl Hn Hw) as (s & Hs & Hst & _).
    exists s. split; [|exact Hst]. eapply der_delegate; [apply der_held, Hin|exact Hs].
Qed.

(** * Structure is independent of the path (C14) *)
Lemma sk_size_acc {E} : forall (l : list (subkey E)) n,
  fold_left (fun len e => len + ssk_size e)%nat l n
  = (n + fold_right (fun n acc => (4 + 1 + 48 + 96 + n * 96) + acc)%nat 0%nat (map (fun s => length (sk_hvec s)) l))%nat.
Proof.
  induction l as [|s l IH]; intros n; cbn [fold_left map fold_right]; [lia|]. rewrite IH. unfold ssk_size. lia.
Qed.

Lemma sk_size_spec {E} (sk : seckey E) : sk_size sk = spec_size (map (fun s => length (sk_hvec s)) (sec_ssk sk)).
Proof. apply sk_size_acc. Qed.

Lemma estimate_loop_spec m d : forall gl acc, Forall (fun tv => (length (tv_vec tv) <= d)%nat) gl ->
  estimate_loop m d gl acc
  = Ok (acc + fold_right (fun n a => (4 + 1 + 48 + 96 + n * 96) + a)%nat 0%nat (map (fun tv => (d - length (tv_vec tv))%nat) gl))%nat.
Proof.
  induction gl as [|tv gl IH]; intros acc H; cbn [estimate_loop map fold_right].
  - f_equal. lia.
  - inversion H; subst. unfold usub. replace (length (tv_vec tv) <=? d)%nat with true by lia. cbn [bind].
    rewrite IH by assumption. f_equal. lia.
Qed.

Lemma shape_lens {E} m (pp : pubparam E) : forall l gl,
  pp_ok pp -> Forall (shape_ssk pp) l -> map sk_t l = map tv_time gl ->
  Forall (fun tv => tv_init m (tv_time tv) (pp_depth pp) = Ok tv) gl ->
  map (fun s => length (sk_hvec s)) l = map (fun tv => (pp_depth pp - length (tv_vec tv))%nat) gl.
Proof.
  intros l gl Hpp. pose proof (ppo_depth pp Hpp) as Hd.
  revert gl. induction l as [|s l IH]; intros [|tv gl] Hs Hm Hg; try discriminate; [reflexivity|].
  inversion Hs as [|? ? (v & Hn & Hl) Hs']; inversion Hg as [|? ? Htv Hg']; subst. injection Hm as Hm1 Hm2.
  cbn [map]. f_equal; [|apply IH; auto].
  destruct (tv_init_node m (pp_depth pp) _ tv ltac:(lia) Htv) as [_ Hn']. rewrite <- Hm1 in Hn'.
  rewrite Hl, (node_at_fun _ _ _ _ Hn Hn'). reflexivity.
Qed.

Lemma gamma_entries m d t v gl : (1 <= d < 64)%nat -> node_at d t v -> gamma_list m (TimeVec t v) d = Ok gl ->
  tiling d t (map tv_time gl) /\ (length gl <= d)%nat
  /\ Forall (fun tv => node_at d (tv_time tv) (tv_vec tv)) gl
  /\ Forall (fun tv => tv_init m (tv_time tv) d = Ok tv) gl.
Proof.
  intros Hd Hn Hg. destruct (gamma_list_spec m d t v ltac:(lia) Hn) as (pl & Hgl & Hv & Htil & Hlen & _).
  rewrite Hg in Hgl. injection Hgl as ->. rewrite map_map, map_length. split; [exact Htil|]. split; [exact Hlen|].
  assert (Hnode : Forall (fun tv => node_at d (tv_time tv) (tv_vec tv)) (map (mk_tv d) pl)).
  { apply Forall_map. eapply Forall_impl; [|exact Hv]. intros p Hp. cbn. apply node_at_ptime. auto. }
  split; [exact Hnode|]. eapply Forall_impl; [|exact Hnode]. intros [t' v']. cbn. intros H. apply tv_init_ok; [lia|exact H].
Qed.

Lemma key_size_estimate : forall (E : env) (L : env_laws E) m m' (pp : pubparam E) pk sk,
  pp_ok pp -> reachable m pp pk sk ->
  estimate_size m' (sec_time sk) (pp_depth pp) = Ok (sk_size sk)
  /\ sk_size sk = spec_size (map (fun s => length (sk_hvec s)) (sec_ssk sk)).
Proof.
  intros E L m m' pp pk sk Hpp Hr. destruct (reachable_good L m pp pk sk Hpp Hr) as (x & _ & _ & Hg & _).
  split; [|apply sk_size_spec]. apply (good_shape pp x) in Hg as [_ Ht Htil Hs]; [|exact Hpp].
  pose proof (ppo_depth pp Hpp) as Hd. unfold estimate_size.
  destruct (tv_init_ex m' (pp_depth pp) (sec_time sk) ltac:(lia) Ht) as (v & Hn & ->). cbn [bind].
  destruct (gamma_list_spec m' (pp_depth pp) _ v ltac:(lia) Hn) as (pl & Hgl & _).
  rewrite Hgl. cbn [bind]. destruct (gamma_entries m' (pp_depth pp) _ v _ ltac:(lia) Hn Hgl) as (Htil' & _ & Hnode & Hin).
  rewrite estimate_loop_spec.
  - rewrite sk_size_spec. rewrite (shape_lens m' pp _ _ Hpp Hs (tiling_fun _ _ _ _ Htil Htil') Hin). reflexivity.
  - eapply Forall_impl; [|exact Hnode]. cbn. intros tv Htv. destruct (node_at_turn _ _ _ Htv). lia.
Qed.

Lemma shape_unique {E} (pp : pubparam E) : forall l l',
  Forall (shape_ssk pp) l -> Forall (shape_ssk pp) l' -> map sk_t l = map sk_t l' ->
  map (fun s => length (sk_hvec s)) l = map (fun s => length (sk_hvec s)) l'.
Proof.
  induction l as [|s l IH]; intros [|s' l'] H H' Hm; try discriminate; [reflexivity|].
  inversion H as [|? ? (v & Hn & Hl) Hr]; inversion H' as [|? ? (v' & Hn' & Hl') Hr']; subst.
  injection Hm as Hm1 Hm2. cbn [map]. f_equal; [|apply IH; auto].
  rewrite Hl, Hl'. rewrite Hm1 in Hn. rewrite (node_at_fun _ _ _ _ Hn Hn'). reflexivity.
Qed.

Lemma path_independent_structure : forall (E : env) (L : env_laws E) m m' (pp : pubparam E) pk pk' sk sk',
  pp_ok pp -> reachable m pp pk sk -> reachable m' pp pk' sk' -> sec_time sk = sec_time sk' ->
  map sk_t (sec_ssk sk) = map sk_t (sec_ssk sk')
  /\ map (fun s => length (sk_hvec s)) (sec_ssk sk) = map (fun s => length (sk_hvec s)) (sec_ssk sk')
  /\ sk_size sk = sk_size sk'.
Proof.
  intros E L m m' pp pk pk' sk sk' Hpp Hr Hr' Ht.
  destruct (reachable_good L m pp pk sk Hpp Hr) as (x & _ & _ & Hg & _).
  destruct (reachable_good L m' pp pk' sk' Hpp Hr') as (x' & _ & _ & Hg' & _).
  apply (good_shape pp) in Hg as [_ _ Htil Hs]; [|exact Hpp]. apply (good_shape pp) in Hg' as [_ _ Htil' Hs']; [|exact Hpp].
  rewrite Ht in Htil. pose proof (tiling_fun _ _ _ _ Htil Htil') as Hm.
  pose proof (shape_unique pp _ _ Hs Hs' Hm) as Hlen.
  split; [exact Hm|]. split; [exact Hlen|]. rewrite !sk_size_spec, Hlen. reflexivity.
Qed.

(** * What an update keeps (C15), the prefix rule (C48) *)
Lemma tiling_app_lt d : forall l1 t a l2, tiling d t (l1 ++ a :: l2) ->
  Forall (fun b => forall s, below d b s -> s < a) l1.
Proof.
  induction l1 as [|b l1 IH]; intros t a l2 H; [constructor|]. cbn [app] in H. inversion H as [|t0 v l Hn Hrest]; subst.
  constructor; [|eapply IH; exact Hrest]. intros s Hs. apply (below_interval _ _ _ _ Hn) in Hs.
  apply tiling_ge in Hrest. apply Forall_app in Hrest as [_ Hrest]. inversion Hrest; subst. lia.
Qed.

Lemma update_carries_over : forall (E : env) (L : env_laws E) m m' (pp : pubparam E) pk sk t seed sk',
  pp_ok pp -> reachable m pp pk sk -> update m' pp t seed sk = (Ok tt, sk') ->
  exists gone del kept new,
    sec_ssk sk = gone ++ del :: kept /\ sec_ssk sk' = new ++ kept
    /\ below (pp_depth pp) (sk_t del) t
    /\ Forall (fun s => forall u, below (pp_depth pp) (sk_t s) u -> u < t) gone
    /\ Forall (fun s => below (pp_depth pp) (sk_t del) (sk_t s)) new
    /\ (sk_t del = t -> new = [del]).
Proof.
  intros E L m m' pp pk sk t seed sk' Hpp Hr Hu.
  destruct (reachable_good L m pp pk sk Hpp Hr) as (x & _ & _ & Hg & _).
  assert (Ht : sec_time sk < t <= last_time (pp_depth pp)).
  { pose proof (update_cases L m' pp x sk t seed Hpp Hg) as H. destruct (in_range pp sk t) eqn:Er.
    - unfold in_range in Er. lia.
    - rewrite Hu in H. discriminate. }
  destruct (update_good L m' pp x sk t seed Hpp Hg Ht) as (pre & ta & va & r & post & [Hl Hn Hc Hpre Htil Hpost] & Hcase).
  pose proof (gsk_til _ _ _ Hg) as Hall. rewrite Hl, map_app in Hall. cbn [map honest_ssk sk_t] in Hall.
  assert (Hgone : Forall (fun s => forall u, below (pp_depth pp) (sk_t s) u -> u < t) pre).
  { apply tiling_app_lt in Hall. rewrite Forall_map in Hall. eapply Forall_impl; [|exact Hall]. cbn. intros s Hs u Hu'.
    specialize (Hs u Hu'). lia. }
  assert (Hbel : below (pp_depth pp) ta t) by (apply (below_interval _ _ va); [exact Hn|lia]).
  destruct Hcase as [[He Hu']|[Hlt (tv & gpre & gpost & Htv & Hgl & _ & _ & _ & Hnodes & Hu')]].
  - rewrite Hu in Hu'. injection Hu' as ->. exists pre, (honest_ssk pp x ta va r), post, [honest_ssk pp x ta va r].
    cbn [sk_t honest_ssk sec_ssk]. repeat split; auto. constructor; [|constructor]. cbn. apply below_refl.
    apply (node_at_range _ _ _ Hn).
  - destruct (spec_fresh pp x r (sec_prng sk) true gpre (spec_reseed sk seed)) as [[ks g']|] eqn:Ef;
      rewrite Hu in Hu'; [|discriminate]. injection Hu' as ->.
    exists pre, (honest_ssk pp x ta va r), post, ks. cbn [sk_t honest_ssk sec_ssk]. repeat split; auto; [|lia].
    assert (Hnodes' : Forall (fun tv => node_at (pp_depth pp) (tv_time tv) (tv_vec tv)) gpre)
      by (eapply Forall_impl; [|exact Hnodes]; cbn; tauto).
    destruct (spec_fresh_props L pp x r _ _ _ _ _ _ Hnodes' (spec_reseed_ok L sk seed) Ef) as [Hm _].
    rewrite <- (Forall_map sk_t (fun s => below (pp_depth pp) ta s)), Hm, Forall_map.
    eapply Forall_impl; [|exact Hnodes]. cbn. intros tv' (Hn' & w & _ & Hw). rewrite Hw in Hn'. exists va, w. auto.
Qed.

(** The new stamps are the entries of the gamma list below the delegator, in order
    (spec.md: "for each x in the gamma list: if the delegator is a prefix of x ..."). *)
Lemma update_prefix_rule : forall (E : env) (L : env_laws E) m m' (pp : pubparam E) pk sk t seed sk' tv gl,
  pp_ok pp -> reachable m pp pk sk -> update m' pp t seed sk = (Ok tt, sk') ->
  tv_init m' t (pp_depth pp) = Ok tv -> gamma_list m' tv (pp_depth pp) = Ok gl ->
  exists gone del kept new tvd,
    sec_ssk sk = gone ++ del :: kept /\ sec_ssk sk' = new ++ kept
    /\ tv_init m' (sk_t del) (pp_depth pp) = Ok tvd
    /\ map sk_t new = map tv_time (filter (fun e => tv_is_prefix tvd e || (tv_time e =? sk_t del)) gl)
    /\ map sk_t kept = map tv_time (filter (fun e => negb (tv_is_prefix tvd e || (tv_time e =? sk_t del))) gl).
Proof.
  intros E L m m' pp pk sk t seed sk' tv gl Hpp Hr Hu Htv Hgl.
  destruct (reachable_good L m pp pk sk Hpp Hr) as (x & _ & _ & Hg & _).
  pose proof (ppo_depth pp Hpp) as Hd.
  assert (Ht : sec_time sk < t <= last_time (pp_depth pp)).
  { pose proof (update_cases L m' pp x sk t seed Hpp Hg) as H. destruct (in_range pp sk t) eqn:Er.
    - unfold in_range in Er. lia.
    - rewrite Hu in H. discriminate. }
  destruct (update_good L m' pp x sk t seed Hpp Hg Ht) as (pre & ta & va & r & post & [Hl Hn Hc Hpre Htil Hpost] & Hcase).
  assert (Hia : tv_init m' ta (pp_depth pp) = Ok (TimeVec ta va)) by (apply tv_init_ok; [lia|exact Hn]).
  destruct (tv_init_node m' (pp_depth pp) t tv ltac:(lia) Htv) as [Htt Hnt]. destruct tv as [t0 v]. cbn [tv_time tv_vec] in *. subst t0.
  destruct (gamma_entries m' (pp_depth pp) t v gl ltac:(lia) Hnt Hgl) as (Htilg & _ & Hnode & Hinit).
  assert (Hsel : forall e, In e gl -> (tv_is_prefix (TimeVec ta va) e || (tv_time e =? ta)) = true <-> tv_time e < ta + (pow2 (pp_depth pp - length va) - 1)).
  { intros e He. rewrite Forall_forall in Hnode. specialize (Hnode e He).
    assert (Hge : t <= tv_time e).
    { apply tiling_ge in Htilg. rewrite Forall_forall in Htilg. apply Htilg, in_map, He. }
    destruct e as [te ve]. cbn [tv_time tv_vec] in *. rewrite orb_true_iff, (is_prefix_spec (pp_depth pp)) by assumption.
    rewrite (strictly_below_interval _ _ va) by exact Hn. lia. }
  destruct Hcase as [[He Hu']|[Hlt (tv' & gpre & gpost & Htv' & Hgl' & _ & Ht1 & Hmp & Hnodes & Hu')]].
  - (* the delegator is the key for t itself *)
    rewrite Hu in Hu'. injection Hu' as ->. subst t.
    assert (Hgt : map tv_time gl = ta :: map sk_t post).
    { eapply tiling_fun; [exact Htilg|]. eapply tile_cons; [exact Hn|exact Htil]. }
    destruct gl as [|e gl]; [discriminate|]. injection Hgt as He Hgt.
    exists pre, (honest_ssk pp x ta va r), post, [honest_ssk pp x ta va r], (TimeVec ta va).
    cbn [sk_t honest_ssk sec_ssk]. split; [exact Hl|]. split; [reflexivity|]. split; [exact Hia|].
    assert (Hno : Forall (fun e => (tv_is_prefix (TimeVec ta va) e || (tv_time e =? ta)) = false) gl).
    { apply Forall_forall. intros e' He'. destruct (_ || _) eqn:Ep; [|reflexivity].
      apply (proj1 (Hsel e' (or_intror He'))) in Ep. apply tiling_ge in Htil. rewrite <- Hgt in Htil.
      rewrite Forall_forall in Htil. specialize (Htil _ (in_map tv_time _ _ He')). cbn in Htil. lia. }
    assert (Hf : filter (fun e => tv_is_prefix (TimeVec ta va) e || (tv_time e =? ta)) gl = []).
    { clear -Hno. induction Hno as [|e l He _ IH]; [reflexivity|]. cbn [filter]. rewrite He. exact IH. }
    assert (Hf' : filter (fun e => negb (tv_is_prefix (TimeVec ta va) e || (tv_time e =? ta))) gl = gl).
    { clear -Hno. induction Hno as [|e l He _ IH]; [reflexivity|]. cbn [filter]. rewrite He. cbn [negb]. rewrite IH. reflexivity. }
    cbn [filter]. rewrite He, N.eqb_refl, orb_true_r. cbn [negb map]. rewrite Hf, Hf', He. cbn [map]. auto.
  - rewrite Htv in Htv'. injection Htv' as <-. rewrite Hgl in Hgl'. injection Hgl' as ->.
    destruct (spec_fresh pp x r (sec_prng sk) true gpre (spec_reseed sk seed)) as [[ks g']|] eqn:Ef;
      rewrite Hu in Hu'; [|discriminate]. injection Hu' as ->.
    exists pre, (honest_ssk pp x ta va r), post, ks, (TimeVec ta va). cbn [sk_t honest_ssk sec_ssk].
    split; [exact Hl|]. split; [reflexivity|]. split; [exact Hia|].
    assert (Hnodes' : Forall (fun tv => node_at (pp_depth pp) (tv_time tv) (tv_vec tv)) gpre)
      by (eapply Forall_impl; [|exact Hnodes]; cbn; tauto).
    destruct (spec_fresh_props L pp x r _ _ _ _ _ _ Hnodes' (spec_reseed_ok L sk seed) Ef) as [Hm _].
    assert (H1 : Forall (fun e => (tv_is_prefix (TimeVec ta va) e || (tv_time e =? ta)) = true) gpre).
    { apply Forall_forall. intros e He. apply Hsel; [apply in_or_app; auto|].
      rewrite Forall_forall in Hnodes. destruct (Hnodes e He) as (Hne & w & _ & Hw).
      apply (below_interval _ _ va); [exact Hn|]. exists va, w. rewrite <- Hw. auto. }
    assert (H2 : Forall (fun e => (tv_is_prefix (TimeVec ta va) e || (tv_time e =? ta)) = false) gpost).
    { apply Forall_forall. intros e He. destruct (_ || _) eqn:Ep; [|reflexivity].
      apply (proj1 (Hsel e (in_or_app _ _ _ (or_intror He)))) in Ep. apply tiling_ge in Htil. rewrite <- Hmp in Htil.
      rewrite Forall_forall in Htil. specialize (Htil _ (in_map tv_time _ _ He)). cbn in Htil. lia. }
    rewrite !filter_app.
    assert (Hf : forall l, Forall (fun e => (tv_is_prefix (TimeVec ta va) e || (tv_time e =? ta)) = true) l ->
      filter (fun e => tv_is_prefix (TimeVec ta va) e || (tv_time e =? ta)) l = l
      /\ filter (fun e => negb (tv_is_prefix (TimeVec ta va) e || (tv_time e =? ta))) l = []).
    { clear. intros l H. induction H as [|e l He _ [IH1 IH2]]; [auto|]. cbn [filter]. rewrite He. cbn [negb]. rewrite IH1, IH2. auto. }
    assert (Hf' : forall l, Forall (fun e => (tv_is_prefix (TimeVec ta va) e || (tv_time e =? ta)) = false) l ->
      filter (fun e => tv_is_prefix (TimeVec ta va) e || (tv_time e =? ta)) l = []
      /\ filter (fun e => negb (tv_is_prefix (TimeVec ta va) e || (tv_time e =? ta))) l = l).
    { clear. intros l H. induction H as [|e l He _ [IH1 IH2]]; [auto|]. cbn [filter]. rewrite He. cbn [negb]. rewrite IH1, IH2. auto. }
    destruct (Hf gpre H1) as [-> ->]. destruct (Hf' gpost H2) as [-> ->]. rewrite app_nil_r. cbn [app]. rewrite Hm, Hmp. auto.
Qed.
