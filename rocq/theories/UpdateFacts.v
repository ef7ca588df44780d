(** SecretKey::update on good keys. *)
From Coq Require Import Sorting.Sorted.
From Verif Require Import Base Env NMod GroupFacts Time SpecTime TimeFacts Hkdf Prng SpecPrng PrngFacts
  SubKey SecretKey Keys Sig SpecKey SubKeyFacts SpecUpdate.
From Coq Require Import ZifyBool ZifyNat ZifyN.
Local Open Scope N_scope.
Local Arguments N.add : simpl never.
Local Arguments N.mul : simpl never.
Local Arguments N.sub : simpl never.
Local Arguments pow2 : simpl never.

Lemma tiling_inv d t a l : tiling d t (a :: l) ->
  t = a /\ exists v, node_at d a v /\ tiling d (a + (pow2 (d - length v) - 1)) l.
Proof. intros H. inversion H; subst. split; [reflexivity|]. eauto. Qed.

Lemma tiling_suffix d l1 : forall t a l2, tiling d t (l1 ++ a :: l2) -> tiling d a (a :: l2).
Proof.
  induction l1 as [|b l1 IH]; intros t a l2 H; cbn [app] in H.
  - apply tiling_inv in H as H'. destruct H' as [<- _]. exact H.
  - apply tiling_inv in H as (_ & v & _ & H). apply (IH _ _ _ H).
Qed.

Lemma tiling_nil_inv d t : tiling d t [] -> t = pow2 d.
Proof. intros H; inversion H; reflexivity. Qed.

(** The interval of the sub key that covers [tar]. *)
Lemma tiling_interval d a l va tar :
  tiling d a (a :: l) -> node_at d a va -> a <= tar <= last_time d ->
  Forall (fun s => tar < s) l ->
  a <= tar < a + (pow2 (d - length va) - 1) /\ tiling d (a + (pow2 (d - length va) - 1)) l.
Proof.
  intros H Hn Ht Hf. apply tiling_inv in H as (_ & v & Hn' & H).
  rewrite (node_at_fun _ _ _ _ Hn Hn') in *. split; [|exact H]. split; [lia|].
  destruct l as [|b l].
  - apply tiling_nil_inv in H. rewrite H. unfold last_time in Ht. pose proof (pow2_pos d). lia.
  - apply tiling_inv in H as (-> & _). inversion Hf; subst. assumption.
Qed.

(** * find_ancestor *)
Lemma ancestor_loop_spec {E} tar : forall (l : list (subkey E)) b,
  StronglySorted N.lt (sk_t b :: map sk_t l) -> sk_t b <= tar ->
  exists pre a post, b :: l = pre ++ a :: post /\ sk_t a <= tar
    /\ Forall (fun s => tar < sk_t s) post /\ ancestor_loop tar (sk_t b) l = sk_t a.
Proof.
  induction l as [|s l IH]; intros b Hs Hb; cbn [ancestor_loop map] in *.
  - exists [], b, []. repeat split; auto.
  - inversion Hs as [|? ? Hs' Hf]; subst. destruct (N.leb_spec (sk_t s) tar) as [Hle|Hgt].
    + destruct (IH s Hs' Hle) as (pre & a & post & He & Ha & Hp & Hr).
      exists (b :: pre), a, post. rewrite He. repeat split; auto.
    + assert (Hall : Forall (fun s => tar < sk_t s) (s :: l)).
      { inversion Hs' as [|? ? Hs'' Hf']; subst. constructor; [exact Hgt|].
        rewrite Forall_map in Hf'. eapply Forall_impl; [|exact Hf']. cbn. intros. lia. }
      exists [], b, (s :: l). split; [reflexivity|]. split; [exact Hb|]. split; [exact Hall|].
      inversion Hall as [|? ? _ Hl]; subst. clear -Hl.
      induction l as [|c l IH]; cbn [ancestor_loop]; [reflexivity|].
      inversion Hl; subst. replace (sk_t c <=? tar) with false by lia. apply IH; assumption.
Qed.

Lemma drop_until_spec {E} (pre : list (subkey E)) a post :
  StronglySorted N.lt (map sk_t (pre ++ a :: post)) ->
  drop_until (sk_t a) (pre ++ a :: post) = Ok (a :: post).
Proof.
  induction pre as [|b pre IH]; intros Hs; cbn [app drop_until].
  - rewrite N.eqb_refl. reflexivity.
  - cbn [app map] in Hs. inversion Hs as [|? ? Hs' Hf]; subst.
    rewrite map_app, Forall_app in Hf. destruct Hf as [_ Hf]. inversion Hf; subst.
    replace (sk_t b =? sk_t a) with false by lia. apply IH; assumption.
Qed.

(** * The loop *)
Lemma tv_eqb_refl a : tv_eqb a a = true.
Proof. unfold tv_eqb. rewrite N.eqb_refl. simpl. apply bytes_eqb_eq. reflexivity. Qed.

Lemma dup_loop_none {E} m d (tv : timevec) (post : list (subkey E)) :
  (d < 64)%nat -> Forall (fun s => tv_time tv < sk_t s) post ->
  Forall (fun s => 1 <= sk_t s <= last_time d) post ->
  dup_loop m d tv post = Ok false.
Proof.
  intros Hd. induction post as [|s post IH]; intros Hlt Hr; cbn [dup_loop]; [reflexivity|].
  inversion Hlt; inversion Hr; subst. unfold ssk_time_vec.
  destruct (tv_init_ex m d (sk_t s)) as (v & _ & ->); auto. cbn [bind].
  unfold tv_eqb at 1. cbn [tv_time].
  replace (tv_time tv =? sk_t s) with false by lia. cbn [andb]. apply IH; assumption.
Qed.

Lemma skipn_cons_app {A} (a : A) l1 l2 i : length l1 = i -> skipn (i + 1) (a :: l1 ++ l2) = l2.
Proof.
  intros <-. rewrite Nat.add_1_r. cbn [skipn]. apply skipn_app_len. reflexivity.
Qed.
Lemma insert_at_spec {A} (a x : A) l1 l2 i : length l1 = i ->
  insert_at (i + 1) x (a :: l1 ++ l2) = Ok (a :: (l1 ++ [x]) ++ l2).
Proof.
  intros Hi. unfold insert_at. cbn [length]. rewrite app_length.
  replace (i + 1 <=? S (length l1 + length l2))%nat with true by lia.
  rewrite (skipn_cons_app a l1 l2 i Hi). rewrite Nat.add_1_r. cbn [firstn].
  rewrite firstn_app_len by exact Hi. cbn [app]. rewrite <- app_assoc. reflexivity.
Qed.

Lemma run_mut_ok {S} (f : st S unit) s s' : f s = (Ok tt, s') -> run_mut f s = Ok s'.
Proof. intros H. unfold run_mut. rewrite H. reflexivity. Qed.

Lemma hash_len_env {E} (L : env_laws E) : hash_len (sha512 E).
Proof. exact (lh_len E L). Qed.

Lemma update_loop_end {E} m (pp : pubparam E) old i gl (a : subkey E) done post g :
  pp_ok pp -> length done = i ->
  Forall (fun tv => tv_init m (tv_time tv) (pp_depth pp) = Ok tv) gl ->
  map tv_time gl = map sk_t post ->
  update_loop m pp old i gl (a :: done ++ post) g = Ok (a :: done ++ post, g).
Proof.
  intros Hpp Hi Hgl Hm. destruct gl as [|tv gl]; [reflexivity|].
  destruct post as [|s post]; [discriminate|]. cbn [map] in Hm. injection Hm as Hm _.
  cbn [update_loop]. rewrite (skipn_cons_app a done (s :: post) i Hi). cbn [dup_loop].
  inversion Hgl; subst. unfold ssk_time_vec. rewrite <- Hm, H1. cbn [bind].
  rewrite tv_eqb_refl. reflexivity.
Qed.

Lemma update_loop_spec {E} (L : env_laws E) m (pp : pubparam E) x ta va r old post gpost :
  pp_ok pp -> node_at (pp_depth pp) ta va ->
  Forall (fun s => 1 <= sk_t s <= last_time (pp_depth pp)) post ->
  Forall (fun tv => tv_init m (tv_time tv) (pp_depth pp) = Ok tv) gpost ->
  map tv_time gpost = map sk_t post ->
  forall gpre i done g,
  length done = i ->
  Forall (fun tv => node_at (pp_depth pp) (tv_time tv) (tv_vec tv)
                    /\ exists w, w <> [] /\ tv_vec tv = va ++ w) gpre ->
  Forall (fun tv => Forall (fun s => tv_time tv < sk_t s) post) gpre ->
  update_loop m pp old i (gpre ++ gpost) (honest_ssk pp x ta va r :: done ++ post) g
  = match spec_fresh pp x r old (i =? 0)%nat gpre g with
    | Some (ks, g') => Ok (honest_ssk pp x ta va r :: (done ++ ks) ++ post, g')
    | None => Panic P_PRNG
    end.
Proof.
  intros Hpp Hna Hpr Hgp Hmp. pose proof (ppo_depth pp Hpp) as Hd.
  induction gpre as [|tv gpre IH]; intros i done g Hi Hb Hlt.
  - cbn [app spec_fresh]. rewrite app_nil_r. apply update_loop_end; auto.
  - inversion Hb as [|? ? (Hn & w & Hw & Hv) Hb']; subst.
    inversion Hlt as [|? ? Hlt1 Hlt']; subst. cbn [app update_loop].
    rewrite skipn_cons_app by reflexivity.
    rewrite dup_loop_none by (auto; lia). cbn [bind].
    change (nth_res (honest_ssk pp x ta va r :: done ++ post) 0) with (Ok (honest_ssk pp x ta va r)).
    cbn [bind]. rewrite Hv in Hn.
    rewrite (run_mut_ok _ _ _ (delegate_honest L m pp x ta va (tv_time tv) w r Hpp Hna Hn Hw)).
    cbn [bind]. unfold rerand_new.
    destruct (Nat.eqb_spec (length done) 0) as [Hz|Hz]; cbn [spec_fresh].
    + cbn [bind]. rewrite insert_at_spec by reflexivity. cbn [bind].
      rewrite (IH (S (length done)) (done ++ [honest_ssk pp x (tv_time tv) (va ++ w) r]) g);
        [|rewrite app_length; simpl; lia|exact Hb'|exact Hlt'].
      change (S (length done) =? 0)%nat with false.
      destruct (spec_fresh pp x r old false gpre g) as [[ks g']|]; [|reflexivity].
      rewrite Hv, <- !app_assoc. reflexivity.
    + rewrite sample_then_update_spec by (apply (hash_len_env L)). cbn [bind].
      destruct (prng_eqb (spec_next (sha512 E) g DOM_SEP_SK_UPDATE) old); [reflexivity|].
      rewrite (run_mut_ok _ _ _ (randomization_honest L m pp x (tv_time tv) (va ++ w) r _ Hpp Hn)).
      cbn [bind]. rewrite insert_at_spec by reflexivity. cbn [bind].
      rewrite IH; [|rewrite app_length; simpl; lia|exact Hb'|exact Hlt'].
      change (S (length done) =? 0)%nat with false.
      destruct (spec_fresh pp x r old false gpre _) as [[ks g']|]; [|reflexivity].
      rewrite Hv, <- !app_assoc. reflexivity.
Qed.

(** * update *)
Lemma max_time_ok m d : (1 <= d < 64)%nat ->
  (let! p := shl64 m d in sub64 m p 1) = Ok (last_time d).
Proof.
  intros Hd. rewrite shl64_ok by lia. cbn [bind]. rewrite sub64_ok; [reflexivity|]. apply pow2_pos.
Qed.

(** Which sub key covers [tar], and the nodes an update has to create below it. *)
Record split_at {E} (pp : pubparam E) (x : N) (l : list (subkey E)) (tar : N)
    (pre : list (subkey E)) (ta : N) (va : path) (r : N) (post : list (subkey E)) : Prop := SplitAt {
  sp_list : l = pre ++ honest_ssk pp x ta va r :: post;
  sp_node : node_at (pp_depth pp) ta va;
  sp_covers : ta <= tar < ta + (pow2 (pp_depth pp - length va) - 1);
  sp_pre : Forall (fun s => sk_t s < ta) pre;
  sp_til : tiling (pp_depth pp) (ta + (pow2 (pp_depth pp - length va) - 1)) (map sk_t post);
  sp_post : Forall (fun s => tar < sk_t s) post }.

Lemma tiling_head d t l : tiling d t l -> t <= last_time d -> exists l', l = t :: l'.
Proof.
  intros H Ht. inversion H; subst; [|eauto].
  unfold last_time in Ht. pose proof (pow2_pos d). lia.
Qed.

Lemma StronglySorted_app_lt (l1 : list N) a l2 :
  StronglySorted N.lt (l1 ++ a :: l2) -> Forall (fun s => s < a) l1.
Proof.
  induction l1 as [|b l1 IH]; intros H; [constructor|].
  cbn [app] in H. inversion H as [|? ? H' Hf]; subst. constructor; [|apply IH; exact H'].
  apply Forall_app in Hf as [_ Hf]. inversion Hf; assumption.
Qed.

Lemma find_ancestor_good {E} (pp : pubparam E) x sk tar :
  pp_ok pp -> good_sk pp x sk -> sec_time sk < tar <= last_time (pp_depth pp) ->
  exists pre ta va r post, split_at pp x (sec_ssk sk) tar pre ta va r post
    /\ find_ancestor sk tar = Ok ta
    /\ drop_until ta (sec_ssk sk) = Ok (honest_ssk pp x ta va r :: post).
Proof.
  intros Hpp [_ Htime Htil Hh _] Htar. destruct (sec_ssk sk) as [|s l] eqn:Es.
  { cbn [map] in Htil. apply tiling_nil_inv in Htil. unfold last_time in *. lia. }
  pose proof (tiling_sorted _ _ _ Htil) as Hs.
  cbn [map] in Htil, Hs. apply tiling_inv in Htil as Hi. destruct Hi as [Hst _].
  destruct (ancestor_loop_spec tar l s Hs) as (pre & a & post & He & Ha & Hp & Hr); [lia|].
  assert (Hha : honest pp x a).
  { rewrite Forall_forall in Hh. apply Hh. rewrite He. apply in_or_app. right. left. reflexivity. }
  destruct Hha as (va & r & Hna & Hea).
  exists pre, (sk_t a), va, r, post.
  assert (Hfa : find_ancestor sk tar = Ok (sk_t a)).
  { unfold find_ancestor. rewrite Es. replace (tar <=? sk_t s) with false by lia. rewrite Hr. reflexivity. }
  change (sk_t s :: map sk_t l) with (map sk_t (s :: l)) in *. rewrite He in *.
  split; [|split].
  - rewrite map_app in Htil. cbn [map] in Htil. apply tiling_suffix in Htil.
    assert (Hpm : Forall (fun s => tar < s) (map sk_t post)) by (rewrite Forall_map; exact Hp).
    destruct (tiling_interval _ _ _ va tar Htil Hna ltac:(lia) Hpm) as [Hc Ht].
    constructor; auto.
    + rewrite <- Hea. reflexivity.
    + rewrite map_app in Hs. cbn [map] in Hs. apply StronglySorted_app_lt in Hs.
      rewrite Forall_map in Hs. exact Hs.
  - exact Hfa.
  - rewrite drop_until_spec by exact Hs. rewrite <- Hea. reflexivity.
Qed.

Lemma gamma_split {E} m (pp : pubparam E) ta va tar tv (post : list (subkey E)) :
  pp_ok pp -> node_at (pp_depth pp) ta va -> ta < tar < ta + (pow2 (pp_depth pp - length va) - 1) ->
  tiling (pp_depth pp) (ta + (pow2 (pp_depth pp - length va) - 1)) (map sk_t post) ->
  tv_init m tar (pp_depth pp) = Ok tv ->
  exists gpre gpost, gamma_list m tv (pp_depth pp) = Ok (gpre ++ gpost)
    /\ (exists gpre', gpre = tv :: gpre')
    /\ tiling (pp_depth pp) tar (map tv_time gpre ++ map sk_t post)
    /\ map tv_time gpost = map sk_t post
    /\ Forall (fun tv => tv_init m (tv_time tv) (pp_depth pp) = Ok tv) gpost
    /\ Forall (fun tv => node_at (pp_depth pp) (tv_time tv) (tv_vec tv)
                    /\ exists w, w <> [] /\ tv_vec tv = va ++ w) gpre
    /\ Forall (fun tv => tar <= tv_time tv < ta + (pow2 (pp_depth pp - length va) - 1)) gpre.
Proof.
  intros Hpp Hna Hc Hpt Htv. set (d := pp_depth pp) in *. pose proof (ppo_depth pp Hpp) as Hd. fold d in Hd.
  apply tv_init_node in Htv as [Htt Hn]; [|lia]. destruct tv as [t0 v]; cbn [tv_time tv_vec] in *; subst t0.
  destruct (gamma_list_spec m d tar v ltac:(lia) Hn) as (pl & Hg & Hval & Htil & _ & pl' & Hpl).
  destruct (tiling_through d ta va tar _ Hna ltac:(lia) Htil) as (pre & post' & He & Hne & Hbel & Ht').
  pose proof (tiling_fun _ _ _ _ Ht' Hpt) as ->.
  assert (Hsplit : exists p1 p2, pl = p1 ++ p2 /\ map (ptime d) p1 = pre /\ map (ptime d) p2 = map sk_t post).
  { exists (firstn (length pre) pl), (skipn (length pre) pl). rewrite firstn_skipn. split; [reflexivity|].
    rewrite <- firstn_map, <- skipn_map, He.
    rewrite firstn_app_len, skipn_app_len by reflexivity. split; reflexivity. }
  destruct Hsplit as (p1 & p2 & -> & <- & Hp2). apply Forall_app in Hval as [Hv1 Hv2].
  exists (map (mk_tv d) p1), (map (mk_tv d) p2). rewrite <- map_app. split; [exact Hg|].
  assert (Hnode : forall p, valid_path d p -> node_at d (ptime d p) p)
    by (intros p Hp; apply node_at_ptime; auto).
  split. { destruct p1 as [|q p1]; [contradiction Hne; reflexivity|].
           cbn [app] in Hpl. injection Hpl as -> _. exists (map (mk_tv d) p1). cbn [map]. f_equal.
           unfold mk_tv. f_equal. apply node_at_ptime in Hn as [_ ->]. reflexivity. }
  rewrite !map_map. cbn [mk_tv tv_time].
  split. { rewrite <- Hp2, <- map_app. exact Htil. }
  split; [exact Hp2|].
  split. { rewrite Forall_map. eapply Forall_impl; [|exact Hv2]. intros p Hp. cbn.
           apply tv_init_ok; [lia|apply Hnode, Hp]. }
  assert (Hge : Forall (fun s => tar <= s) (map (ptime d) p1)).
  { rewrite map_app in Htil. apply tiling_ge in Htil. apply Forall_app in Htil. tauto. }
  rewrite Forall_map in Hge, Hbel.
  split.
  - rewrite Forall_map. rewrite Forall_forall in *. intros p Hp. cbn [mk_tv tv_time tv_vec].
    split; [apply Hnode; auto|].
    specialize (Hbel p Hp). specialize (Hge p Hp). specialize (Hv1 p Hp).
    destruct Hbel as (va' & w & Hna' & Hnp).
    rewrite (node_at_fun _ _ _ _ Hna Hna') in *.
    pose proof (node_at_fun _ _ _ _ Hnp (Hnode p Hv1)) as <-.
    exists w. split; [|reflexivity]. intros ->. rewrite app_nil_r in *.
    pose proof (node_at_inj _ _ _ _ Hna' (Hnode va' Hv1)). lia.
  - rewrite Forall_map. rewrite Forall_forall in *. intros p Hp. cbn [mk_tv tv_time].
    split; [apply Hge; auto|]. apply (below_interval d ta va); auto.
Qed.

Lemma remove_at_0 {A} (a : A) l : remove_at 0 (a :: l) = Ok l.
Proof. reflexivity. Qed.

Lemma spec_fresh_nonempty {E} (pp : pubparam E) x r old tv l g ks g' :
  spec_fresh pp x r old true (tv :: l) g = Some (ks, g') ->
  exists ks', ks = honest_ssk pp x (tv_time tv) (tv_vec tv) r :: ks'.
Proof.
  cbn [spec_fresh]. destruct (spec_fresh pp x r old false l g) as [[ks0 g0]|]; [|discriminate].
  intros [= <- _]. eauto.
Qed.

(** Result of an update to an admissible time. *)
Lemma update_good {E} (L : env_laws E) m (pp : pubparam E) x sk tar seed :
  pp_ok pp -> good_sk pp x sk -> sec_time sk < tar <= last_time (pp_depth pp) ->
  exists pre ta va r post, split_at pp x (sec_ssk sk) tar pre ta va r post
    /\ ((ta = tar /\ update m pp tar seed sk
          = (Ok tt, SecKey (sec_cs sk) tar (honest_ssk pp x ta va r :: post) (spec_reseed sk seed)))
     \/ (ta < tar /\ exists tv gpre gpost,
          tv_init m tar (pp_depth pp) = Ok tv
          /\ gamma_list m tv (pp_depth pp) = Ok (gpre ++ gpost)
          /\ (exists gpre', gpre = tv :: gpre')
          /\ tiling (pp_depth pp) tar (map tv_time gpre ++ map sk_t post)
          /\ map tv_time gpost = map sk_t post
          /\ Forall (fun tv => node_at (pp_depth pp) (tv_time tv) (tv_vec tv)
                    /\ exists w, w <> [] /\ tv_vec tv = va ++ w) gpre
          /\ update m pp tar seed sk
             = match spec_fresh pp x r (sec_prng sk) true gpre (spec_reseed sk seed) with
               | Some (ks, g') => (Ok tt, SecKey (sec_cs sk) tar (ks ++ post) g')
               | None => (Panic P_PRNG, sk)
               end)).
Proof.
  intros Hpp Hg Htar. pose proof (ppo_depth pp Hpp) as Hd.
  destruct (find_ancestor_good pp x sk tar Hpp Hg Htar) as (pre & ta & va & r & post & Hsp & Hfa & Hdu).
  exists pre, ta, va, r, post. split; [exact Hsp|].
  unfold update, sbind, sget, slift, sput. rewrite (gsk_cs pp x sk Hg), N.eqb_refl. cbn [negb].
  pose proof (max_time_ok m (pp_depth pp) Hd) as Hmax. destruct (shl64 m (pp_depth pp)) as [p| |]; try discriminate.
  cbn [bind] in Hmax. rewrite Hmax.
  replace (tar <=? sec_time sk) with false by lia.
  replace (last_time (pp_depth pp) <? tar) with false by lia. cbn [orb].
  rewrite Hfa, rerandomize_spec by (apply (hash_len_env L)). rewrite Hdu.
  fold (spec_reseed sk seed).
  destruct (N.eqb_spec ta tar) as [He|He].
  - left. split; [exact He|]. subst. reflexivity.
  - right. destruct Hsp as [Hl Hn Hc Hpre Htil Hpost]. split; [lia|].
    destruct (tv_init_ex m (pp_depth pp) tar ltac:(lia)) as (v & Hnv & Htv).
    { pose proof (node_at_range _ _ _ Hn). lia. }
    rewrite Htv.
    destruct (gamma_split m pp ta va tar (TimeVec tar v) post Hpp Hn ltac:(lia) Htil Htv)
      as (gpre & gpost & Hgl & (gpre' & Hgp) & Ht & Hmp & Hgpost & Hnodes & Hrange).
    exists (TimeVec tar v), gpre, gpost. split; [reflexivity|]. split; [exact Hgl|].
    split; [eauto|]. split; [exact Ht|]. split; [exact Hmp|]. split; [exact Hnodes|].
    rewrite Hgl.
    assert (Hpr : Forall (fun s => 1 <= sk_t s <= last_time (pp_depth pp)) post).
    { apply tiling_nodes in Htil. rewrite Forall_map in Htil. exact Htil. }
    assert (Hlt : Forall (fun tv => Forall (fun s => tv_time tv < sk_t s) post) gpre).
    { apply tiling_ge in Htil. rewrite Forall_map in Htil.
      eapply Forall_impl; [|exact Hrange]. intros tv [_ Htv2]. cbn in Htv2.
      eapply Forall_impl; [|exact Htil]. cbn. intros. lia. }
    pose proof (update_loop_spec L m pp x ta va r (sec_prng sk) post gpost Hpp Hn Hpr Hgpost Hmp
                  gpre 0%nat [] (spec_reseed sk seed) eq_refl Hnodes Hlt) as Hloop.
    cbn [app Nat.eqb] in Hloop. rewrite Hloop.
    destruct (spec_fresh pp x r (sec_prng sk) true gpre (spec_reseed sk seed)) as [[ks g']|] eqn:Ef; [|reflexivity].
    rewrite remove_at_0. rewrite Hgp in Ef. apply spec_fresh_nonempty in Ef as [ks' ->].
    reflexivity.
Qed.
