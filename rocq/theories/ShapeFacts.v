(** Sub keys and keys of the right shape (time stamps and vector lengths), whatever
    their group elements: delegate, randomization, update. *)
From Coq Require Import Sorting.Sorted.
From Verif Require Import Base Env NMod GroupFacts Time SpecTime TimeFacts Hkdf Prng SpecPrng PrngFacts
  SubKey SecretKey Keys Sig SpecKey SubKeyFacts SpecUpdate UpdateFacts KeyFacts.
From Coq Require Import ZifyBool ZifyNat ZifyN.
Local Open Scope N_scope.
Local Arguments N.add : simpl never.
Local Arguments N.mul : simpl never.
Local Arguments N.sub : simpl never.
Local Arguments pow2 : simpl never.

Lemma honest_shape {E} (pp : pubparam E) x s : pp_ok pp -> honest pp x s -> shape_ssk pp s.
Proof.
  intros Hpp (v & r & Hn & Hs). exists v. split; [exact Hn|]. rewrite Hs. apply honest_hvec_len, Hpp.
Qed.
Lemma good_shape {E} (pp : pubparam E) x sk : pp_ok pp -> good_sk pp x sk -> shape_sk pp sk.
Proof.
  intros Hpp [? ? ? Hh _]. constructor; auto. eapply Forall_impl; [|exact Hh]. intros s. apply honest_shape, Hpp.
Qed.

(** delegate in closed form, for any sub key. *)
Lemma delegate_general {E} (L : env_laws E) m d (s : subkey E) t' v w :
  (d < 64)%nat -> node_at d (sk_t s) v -> node_at d t' (v ++ w) -> w <> [] -> (length w <= length (sk_hvec s))%nat ->
  delegate m t' d s = (Ok tt, SubKey t' (sk_g2r s) (g1_add (sk_hpoly s) (lincomb w (sk_hvec s)))
                                (skipn (length w) (sk_hvec s))).
Proof.
  intros Hd Hn Hn' Hw Hl. unfold delegate, sbind, sget, slift, sput.
  rewrite (proj2 (tv_init_ok m d _ v ltac:(lia)) Hn), (proj2 (tv_init_ok m d t' _ ltac:(lia)) Hn').
  assert (Hpre : tv_is_prefix (TimeVec (sk_t s) v) (TimeVec t' (v ++ w)) = true).
  { apply (is_prefix_spec d); auto. exists v, w. auto. }
  rewrite Hpre. cbn [negb tv_vec].
  destruct (node_at_turn _ _ _ Hn') as [Ht' _]. apply Forall_app in Ht' as [_ Htw].
  rewrite skipn_app, skipn_all, Nat.sub_diag. cbn [skipn app].
  rewrite (del_loop_lin L) by (auto; lia). cbn [sk_t sk_g2r sk_hpoly sk_hvec].
  rewrite app_length. replace (length v + length w - length v)%nat with (length w) by lia. reflexivity.
Qed.

(** What a successful delegation says about the times. *)
Lemma delegate_ok_below {E} m d (s : subkey E) t' s' :
  (d < 64)%nat -> delegate m t' d s = (Ok tt, s') ->
  strictly_below d (sk_t s) t' /\ sk_t s' = t' /\ sk_g2r s' = sk_g2r s.
Proof.
  intros Hd H. unfold delegate, sbind, sget, slift, sput in H.
  destruct (tv_init m (sk_t s) d) as [tv| |] eqn:E1; try discriminate.
  destruct (tv_init m t' d) as [tv'| |] eqn:E2; try discriminate.
  destruct (tv_is_prefix tv tv') eqn:E3; cbn [negb] in H; [|discriminate].
  destruct (del_loop _ _ _) as [o hp]. destruct o; try discriminate. injection H as <-. cbn.
  destruct (tv_init_node m d _ tv Hd E1) as [Ht Hn]. destruct (tv_init_node m d _ tv' Hd E2) as [Ht' Hn'].
  destruct tv as [t1 v1], tv' as [t2 v2]. cbn [tv_time tv_vec] in *. subst.
  split; [|split; reflexivity]. apply (is_prefix_spec d _ v1 _ v2); auto.
Qed.

(** delegate to a time that is not strictly below: an error, nothing changed. *)
Lemma delegate_err {E} m d (s : subkey E) t' :
  (1 <= d < 64)%nat -> ~ strictly_below d (sk_t s) t' ->
  exists e, delegate m t' d s = (Err e, s)
    /\ (1 <= sk_t s <= last_time d -> 1 <= t' <= last_time d -> e = E_TIME_NONE_PREFIX).
Proof.
  intros Hd Hnb. unfold delegate, sbind, sget, slift, sput.
  destruct (tv_init m (sk_t s) d) as [tv|e|p] eqn:E1.
  2:{ exists e. split; [reflexivity|]. intros Hr. destruct (tv_init_ex m d _ ltac:(lia) Hr) as (v & _ & Hv). congruence. }
  2:{ exfalso. unfold tv_init in E1. destruct (time_to_vec m (sk_t s) d) eqn:Et; try discriminate.
      apply (time_to_vec_no_panic m d (sk_t s) p0); [lia|exact Et]. }
  destruct (tv_init m t' d) as [tv'|e|p] eqn:E2.
  2:{ exists e. split; [reflexivity|]. intros _ Hr. destruct (tv_init_ex m d _ ltac:(lia) Hr) as (v & _ & Hv). congruence. }
  2:{ exfalso. unfold tv_init in E2. destruct (time_to_vec m t' d) eqn:Et; try discriminate.
      apply (time_to_vec_no_panic m d t' p0); [lia|exact Et]. }
  destruct (tv_init_node m d _ tv ltac:(lia) E1) as [Ht Hn]. destruct (tv_init_node m d _ tv' ltac:(lia) E2) as [Ht' Hn'].
  destruct tv as [t1 v1], tv' as [t2 v2]. cbn [tv_time tv_vec] in *. subst.
  destruct (tv_is_prefix _ _) eqn:E3.
  - destruct Hnb. apply (is_prefix_spec d _ v1 _ v2); auto.
  - cbn [negb]. exists E_TIME_NONE_PREFIX. auto.
Qed.

(** randomization in closed form, for any sub key whose vector is not too long. *)
Lemma randomization_general {E} (L : env_laws E) m (pp : pubparam E) (s : subkey E) v r :
  pp_ok pp -> node_at (pp_depth pp) (sk_t s) v -> (length v + length (sk_hvec s) < length (pp_hlist pp))%nat ->
  randomization m pp r s
  = (Ok tt, SubKey (sk_t s) (g2_add (sk_g2r s) (g2_mul r (pp_g2 pp)))
              (g1_add (sk_hpoly s) (g1_mul r (node_val pp v)))
              (map (fun xh => g1_add (fst xh) (g1_mul r (snd xh)))
                   (combine (sk_hvec s) (skipn (length v + 1) (pp_hlist pp))))).
Proof.
  intros Hpp Hn Hl. pose proof (ppo_depth pp Hpp) as Hd. pose proof (ppo_len pp Hpp) as Hlen.
  destruct (node_at_turn _ _ _ Hn) as [Ht Hlv].
  unfold randomization, sbind, sget, slift, sput, ssk_time_vec. cbn [sk_t sk_g2r sk_hpoly sk_hvec].
  rewrite (proj2 (tv_init_ok m (pp_depth pp) (sk_t s) v ltac:(lia)) Hn). cbn [tv_vec].
  rewrite (nth_res_ok _ _ g1_zero) by lia. rewrite (poly_loop_node L) by auto.
  cbn [sk_t sk_g2r sk_hpoly sk_hvec]. rewrite hv_loop_ok by lia. reflexivity.
Qed.

(** * Shapes are preserved *)
Lemma delegate_shape {E} (L : env_laws E) m (pp : pubparam E) (s : subkey E) t' v w :
  pp_ok pp -> node_at (pp_depth pp) (sk_t s) v -> length (sk_hvec s) = (pp_depth pp - length v)%nat ->
  node_at (pp_depth pp) t' (v ++ w) -> w <> [] ->
  exists s', delegate m t' (pp_depth pp) s = (Ok tt, s') /\ sk_t s' = t'
    /\ length (sk_hvec s') = (pp_depth pp - length (v ++ w))%nat.
Proof.
  intros Hpp Hn Hl Hn' Hw. pose proof (ppo_depth pp Hpp) as Hd. destruct (node_at_turn _ _ _ Hn') as [_ Hlw].
  rewrite app_length in *. eexists. split; [apply (delegate_general L m (pp_depth pp) s t' v w); auto; lia|].
  cbn [sk_t sk_hvec]. split; [reflexivity|]. rewrite skipn_length. lia.
Qed.

Lemma randomization_shape {E} (L : env_laws E) m (pp : pubparam E) (s : subkey E) v r :
  pp_ok pp -> node_at (pp_depth pp) (sk_t s) v -> length (sk_hvec s) = (pp_depth pp - length v)%nat ->
  exists s', randomization m pp r s = (Ok tt, s') /\ sk_t s' = sk_t s /\ length (sk_hvec s') = length (sk_hvec s).
Proof.
  intros Hpp Hn Hl. pose proof (ppo_len pp Hpp) as Hlen. destruct (node_at_turn _ _ _ Hn) as [_ Hlv].
  eexists. split; [apply (randomization_general L m pp s v r); auto; lia|].
  cbn [sk_t sk_hvec]. split; [reflexivity|]. rewrite map_length, combine_length, skipn_length. lia.
Qed.

(** * Update of a key of the right shape *)
Lemma update_loop_shape {E} (L : env_laws E) m (pp : pubparam E) a va old post gpost :
  pp_ok pp -> node_at (pp_depth pp) (sk_t a) va -> length (sk_hvec a) = (pp_depth pp - length va)%nat ->
  Forall (fun s => 1 <= sk_t s <= last_time (pp_depth pp)) post ->
  Forall (fun tv => tv_init m (tv_time tv) (pp_depth pp) = Ok tv) gpost ->
  map tv_time gpost = map sk_t post ->
  forall gpre i done g,
  length done = i ->
  Forall (fun tv => node_at (pp_depth pp) (tv_time tv) (tv_vec tv)
                    /\ exists w, w <> [] /\ tv_vec tv = va ++ w) gpre ->
  Forall (fun tv => Forall (fun s => tv_time tv < sk_t s) post) gpre ->
  (exists ks g', update_loop m pp old i (gpre ++ gpost) (a :: done ++ post) g = Ok (a :: (done ++ ks) ++ post, g')
     /\ map sk_t ks = map tv_time gpre /\ Forall (shape_ssk pp) ks)
  \/ update_loop m pp old i (gpre ++ gpost) (a :: done ++ post) g = Panic P_PRNG.
Proof.
  intros Hpp Hna Hla Hpr Hgp Hmp. pose proof (ppo_depth pp Hpp) as Hd.
  induction gpre as [|tv gpre IH]; intros i done g Hi Hb Hlt.
  - left. exists [], g. cbn [app]. rewrite app_nil_r. split; [apply update_loop_end; auto|]. auto.
  - inversion Hb as [|? ? (Hn & w & Hw & Hv) Hb']; subst.
    inversion Hlt as [|? ? Hlt1 Hlt']; subst. cbn [app update_loop].
    rewrite skipn_cons_app by reflexivity.
    rewrite dup_loop_none by (auto; lia). cbn [bind].
    change (nth_res (a :: done ++ post) 0) with (Ok a).
    cbn [bind]. rewrite Hv in Hn.
    destruct (delegate_shape L m pp a (tv_time tv) va w Hpp Hna Hla Hn Hw) as (s1 & Hs1 & Ht1 & Hl1).
    rewrite (run_mut_ok _ _ _ Hs1). cbn [bind]. unfold rerand_new.
    destruct (Nat.eqb_spec (length done) 0) as [Hz|Hz].
    + cbn [bind]. rewrite insert_at_spec by reflexivity. cbn [bind].
      destruct (IH (S (length done)) (done ++ [s1]) g) as [(ks & g' & -> & Hk & Hsh)| ->];
        [rewrite app_length; simpl; lia|exact Hb'|exact Hlt'| |right; reflexivity].
      left. exists (s1 :: ks), g'. rewrite <- !app_assoc. split; [reflexivity|]. cbn [map]. rewrite Hk, Ht1.
      split; [reflexivity|]. constructor; [|exact Hsh]. exists (va ++ w). rewrite Ht1. auto.
    + rewrite sample_then_update_spec by (apply (hash_len_env L)). cbn [bind].
      destruct (prng_eqb (spec_next (sha512 E) g DOM_SEP_SK_UPDATE) old); [right; reflexivity|].
      destruct (randomization_shape L m pp s1 (va ++ w) (spec_scalar (sha512 E) g DOM_SEP_SK_UPDATE)) as (s2 & Hs2 & Ht2 & Hl2);
        [exact Hpp|rewrite Ht1; exact Hn|exact Hl1|].
      rewrite (run_mut_ok _ _ _ Hs2). cbn [bind]. rewrite insert_at_spec by reflexivity. cbn [bind].
      destruct (IH (S (length done)) (done ++ [s2]) (spec_next (sha512 E) g DOM_SEP_SK_UPDATE)) as [(ks & g' & -> & Hk & Hsh)| ->];
        [rewrite app_length; simpl; lia|exact Hb'|exact Hlt'| |right; reflexivity].
      left. exists (s2 :: ks), g'. rewrite <- !app_assoc. split; [reflexivity|]. cbn [map]. rewrite Hk, Ht2, Ht1.
      split; [reflexivity|]. constructor; [|exact Hsh]. exists (va ++ w). rewrite Ht2, Ht1, Hl2. auto.
Qed.

Lemma find_ancestor_shape {E} (pp : pubparam E) sk tar :
  pp_ok pp -> shape_sk pp sk -> sec_time sk < tar <= last_time (pp_depth pp) ->
  exists pre a va post, sec_ssk sk = pre ++ a :: post
    /\ node_at (pp_depth pp) (sk_t a) va /\ length (sk_hvec a) = (pp_depth pp - length va)%nat
    /\ sk_t a <= tar < sk_t a + (pow2 (pp_depth pp - length va) - 1)
    /\ tiling (pp_depth pp) (sk_t a + (pow2 (pp_depth pp - length va) - 1)) (map sk_t post)
    /\ find_ancestor sk tar = Ok (sk_t a)
    /\ drop_until (sk_t a) (sec_ssk sk) = Ok (a :: post)
    /\ tiling (pp_depth pp) (sk_t a) (sk_t a :: map sk_t post).
Proof.
  intros Hpp [_ Htime Htil Hh] Htar. destruct (sec_ssk sk) as [|s l] eqn:Es.
  { cbn [map] in Htil. apply tiling_nil_inv in Htil. unfold last_time in *. lia. }
  pose proof (tiling_sorted _ _ _ Htil) as Hs.
  cbn [map] in Htil, Hs. apply tiling_inv in Htil as Hi. destruct Hi as [Hst _].
  destruct (ancestor_loop_spec tar l s Hs) as (pre & a & post & He & Ha & Hp & Hr); [lia|].
  assert (Hha : shape_ssk pp a).
  { rewrite Forall_forall in Hh. apply Hh. rewrite He. apply in_or_app. right. left. reflexivity. }
  destruct Hha as (va & Hna & Hla).
  exists pre, a, va, post.
  assert (Hfa : find_ancestor sk tar = Ok (sk_t a)).
  { unfold find_ancestor. rewrite Es. replace (tar <=? sk_t s) with false by lia. rewrite Hr. reflexivity. }
  change (sk_t s :: map sk_t l) with (map sk_t (s :: l)) in *. rewrite He in *.
  split; [reflexivity|]. split; [exact Hna|]. split; [exact Hla|].
  rewrite map_app in Htil. cbn [map] in Htil. apply tiling_suffix in Htil.
  assert (Hpm : Forall (fun s => tar < s) (map sk_t post)) by (rewrite Forall_map; exact Hp).
  destruct (tiling_interval _ _ _ va tar Htil Hna ltac:(lia) Hpm) as [Hc Ht].
  split; [exact Hc|]. split; [exact Ht|]. split; [exact Hfa|]. split; [|exact Htil].
  rewrite drop_until_spec by exact Hs. reflexivity.
Qed.

Lemma update_shape {E} (L : env_laws E) m (pp : pubparam E) sk tar seed :
  pp_ok pp -> shape_sk pp sk -> sec_time sk < tar <= last_time (pp_depth pp) ->
  (exists sk', update m pp tar seed sk = (Ok tt, sk') /\ shape_sk pp sk' /\ sec_time sk' = tar)
  \/ update m pp tar seed sk = (Panic P_PRNG, sk).
Proof.
  intros Hpp Hg Htar. pose proof (ppo_depth pp Hpp) as Hd.
  destruct (find_ancestor_shape pp sk tar Hpp Hg Htar) as (pre & a & va & post & Hl & Hn & Hla & Hc & Htil & Hfa & Hdu & Hta).
  unfold update, sbind, sget, slift, sput. rewrite (shs_cs pp sk Hg), N.eqb_refl. cbn [negb].
  pose proof (max_time_ok m (pp_depth pp) Hd) as Hmax. destruct (shl64 m (pp_depth pp)) as [p| |]; try discriminate.
  cbn [bind] in Hmax. rewrite Hmax.
  replace (tar <=? sec_time sk) with false by lia.
  replace (last_time (pp_depth pp) <? tar) with false by lia. cbn [orb].
  rewrite Hfa, rerandomize_spec by (apply (hash_len_env L)). rewrite Hdu.
  fold (spec_reseed sk seed). pose proof (shs_ssk _ _ Hg) as Hall. rewrite Hl in Hall.
  apply Forall_app in Hall as [_ Hall]. inversion Hall as [|? ? Ha Hpost]; subst.
  destruct (N.eqb_spec (sk_t a) tar) as [He|He].
  - left. eexists. split; [reflexivity|]. split; [|exact He]. constructor; cbn [sec_cs sec_time sec_ssk map]; auto.
    + rewrite He. lia.
  - destruct (tv_init_ex m (pp_depth pp) tar ltac:(lia)) as (v & Hnv & Htv).
    { pose proof (node_at_range _ _ _ Hn). lia. }
    rewrite Htv.
    destruct (gamma_split m pp (sk_t a) va tar (TimeVec tar v) post Hpp Hn ltac:(lia) Htil Htv)
      as (gpre & gpost & Hgl & (gpre' & Hgp) & Ht & Hmp & Hgpost & Hnodes & Hrange).
    rewrite Hgl.
    assert (Hpr : Forall (fun s => 1 <= sk_t s <= last_time (pp_depth pp)) post).
    { apply tiling_nodes in Htil. rewrite Forall_map in Htil. exact Htil. }
    assert (Hlt : Forall (fun tv => Forall (fun s => tv_time tv < sk_t s) post) gpre).
    { apply tiling_ge in Htil. rewrite Forall_map in Htil.
      eapply Forall_impl; [|exact Hrange]. intros tv [_ Htv2]. cbn in Htv2.
      eapply Forall_impl; [|exact Htil]. cbn. intros. lia. }
    destruct (update_loop_shape L m pp a va (sec_prng sk) post gpost Hpp Hn Hla Hpr Hgpost Hmp
                  gpre 0%nat [] (spec_reseed sk seed) eq_refl Hnodes Hlt) as [(ks & g' & Hloop & Hk & Hsh)|Hloop];
      cbn [app] in Hloop; rewrite Hloop.
    + left. rewrite remove_at_0. destruct ks as [|s0 ks]; [rewrite Hgp in Hk; discriminate|].
      change (nth_res ((s0 :: ks) ++ post) 0) with (Ok s0).
      assert (Hs0 : sk_t s0 = tar) by (rewrite Hgp in Hk; injection Hk as ->; reflexivity).
      eexists. split; [reflexivity|]. cbn [sec_time sec_ssk sec_cs]. split; [|exact Hs0]. constructor; cbn [sec_cs sec_time sec_ssk].
      * reflexivity.
      * rewrite Hs0. pose proof (shs_time _ _ Hg). lia.
      * rewrite Hs0. change (s0 :: ks ++ post) with ((s0 :: ks) ++ post). rewrite map_app, Hk. exact Ht.
      * change (s0 :: ks ++ post) with ((s0 :: ks) ++ post). apply Forall_app. auto.
    + right. reflexivity.
Qed.
