(** Proofs about the blocks of the h-vectors ([HvMem], [SpecHv]). *)
From Verif Require Import Base Env Time Hkdf Prng SpecPrng SpecTime SubKey SecretKey Keys Sig SpecKey SpecUpdate
  TimeFacts PrngFacts GroupFacts SubKeyFacts UpdateFacts KeyFacts Api HistoryFacts SpecHyg HygProps VecMem SpecVec VecProps ReadProps HvMem SpecHv.
From Coq Require Import Lia ZifyBool ZifyNat ZifyN Sorting.Sorted.
Local Open Scope N_scope.

(** * delegate *)
Lemma last_skipn {A} (d : A) : forall k l, skipn k l <> [] -> last (skipn k l) d = last l d.
Proof.
  induction k as [|k IH]; intros l H; [reflexivity|]. destruct l as [|a l]; [reflexivity|]. cbn [skipn] in *.
  rewrite IH by exact H. destruct l; [destruct k; contradiction H; reflexivity|]. reflexivity.
Qed.
Lemma last_some {E : env} (hv : list (G1 E)) : last (None :: map Some hv) None = match hv with [] => None | _ => Some (last hv g1_zero) end.
Proof.
  destruct hv as [|a hv]; [reflexivity|]. change (last (map Some (a :: hv)) None = Some (last (a :: hv) g1_zero)).
  revert a. induction hv as [|b hv IH]; intros a; [reflexivity|]. cbn [map] in *. exact (IH b).
Qed.
Lemma remove_loop_spec {E : env} : forall k (hv : list (G1 E)) sp, (k <= length hv)%nat ->
  exists nw, remove_loop k hv sp = (Ok tt, (skipn k hv, nw ++ sp)) /\ length nw = k
    /\ (forall x, In (Some x) nw -> x = last hv g1_zero)
    /\ (skipn k hv <> [] -> nw = repeat (Some (last hv g1_zero)) k).
Proof.
  induction k as [|k IH]; intros hv sp Hk.
  - exists []. split; [reflexivity|]. split; [reflexivity|]. split; [intros x []|reflexivity].
  - destruct hv as [|a hv]; cbn [length] in Hk; [lia|]. cbn [remove_loop wipe_remove0].
    destruct (IH hv (last (None :: map Some hv) None :: sp) ltac:(lia)) as (nw & H1 & H2 & H3 & H4).
    exists (nw ++ [last (None :: map Some hv) None]). split; [rewrite H1, <- app_assoc; reflexivity|].
    split; [rewrite app_length, H2; cbn [length]; lia|]. rewrite last_some in *. split.
    + intros x Hin. apply in_app_or in Hin as [Hin|[Hin|[]]].
      * rewrite (H3 _ Hin). destruct hv; [|reflexivity]. cbn [length] in Hk.
        destruct nw; [destruct Hin|cbn [length] in H2; lia].
      * destruct hv; [discriminate Hin|]. injection Hin as <-. reflexivity.
    + intros Hne. cbn [skipn] in Hne. rewrite (H4 Hne).
      destruct hv as [|b hv]; [destruct k; contradiction Hne; reflexivity|].
      change (last (a :: b :: hv) g1_zero) with (last (b :: hv) g1_zero).
      change (repeat (Some (last (b :: hv) g1_zero)) (S k)) with ([Some (last (b :: hv) g1_zero)] ++ repeat (Some (last (b :: hv) g1_zero)) k).
      clear. generalize (Some (last (b :: hv) g1_zero)). intros o. induction k as [|k IH]; [reflexivity|]. cbn [repeat app] in *. rewrite IH. reflexivity.
Qed.
Lemma del_loop_len {E : env} : forall ts (hv : list (G1 E)) hp hp', del_loop hv ts hp = (Ok tt, hp') -> (length ts <= length hv)%nat.
Proof.
  induction ts as [|t ts IH]; intros hv hp hp' H; cbn [length]; [lia|]. cbn [del_loop] in H. destruct hv; [discriminate|]. cbn [length]. apply IH in H. lia.
Qed.

Lemma delegate_blocks : forall (E : env) m t d (s : subkey E) sp,
  exists nw, delegate_hv m t d (s, sp) = (fst (delegate m t d s), (snd (delegate m t d s), nw ++ sp))
    /\ cut_from s (snd (delegate m t d s)) nw.
Proof.
  intros E m t d s sp.
  assert (Hnone : forall s', sk_hvec s' = sk_hvec s -> cut_from s s' []).
  { intros s' H. constructor; [rewrite H; cbn [length]; lia|intros x []|reflexivity]. }
  unfold delegate_hv, delegate, sbind, sget, sput, slift.
  destruct (tv_init m (sk_t s) d) as [cur| |]; try (exists []; split; [reflexivity|apply Hnone; reflexivity]).
  destruct (tv_init m t d) as [tar| |]; try (exists []; split; [reflexivity|apply Hnone; reflexivity]).
  destruct (negb (tv_is_prefix cur tar)); [exists []; split; [reflexivity|apply Hnone; reflexivity]|].
  destruct (del_loop (sk_hvec s) (skipn (length (tv_vec cur)) (tv_vec tar)) (sk_hpoly s)) as [o hp] eqn:Hd.
  destruct o as [[]| |]; try (exists []; split; [reflexivity|apply Hnone; reflexivity]).
  apply del_loop_len in Hd. rewrite skipn_length in Hd.
  destruct (remove_loop_spec _ (sk_hvec s) sp Hd) as (nw & H1 & H2 & H3 & H4). rewrite H1. exists nw. split; [reflexivity|].
  constructor; cbn [snd fst sk_hvec].
  - rewrite skipn_length, H2. lia.
  - exact H3.
  - rewrite H2. exact H4.
Qed.

(** * The loop of update *)
Lemma hv_loop_len {E : env} (hl : list (G1 E)) r : forall hv b, length (snd (hv_loop hl b r hv)) = length hv.
Proof.
  induction hv as [|x hv IH]; intros b; [reflexivity|]. cbn [hv_loop]. destruct (nth_res hl b) as [h| |]; try reflexivity.
  specialize (IH (S b)). destruct (hv_loop hl (S b) r hv) as [o l]. cbn [snd length] in *. lia.
Qed.
Lemma randomization_len {E : env} m (pp : pubparam E) r s : length (sk_hvec (snd (randomization m pp r s))) = length (sk_hvec s).
Proof.
  unfold randomization, sbind, sget, sput, slift, ssk_time_vec. cbn [sk_t sk_hvec].
  destruct (tv_init m (sk_t s) (pp_depth pp)); try reflexivity.
  destruct (nth_res (pp_hlist pp) 0); try reflexivity. destruct (poly_loop _ _ _ _); try reflexivity. cbn [sk_t sk_g2r sk_hpoly sk_hvec].
  match goal with |- context [hv_loop ?a ?b ?c ?h] => pose proof (hv_loop_len a c h b) as H; destruct (hv_loop a b c h) as [[u| |] l] end; exact H.
Qed.
Lemma cut_from_len {E : env} (s0 s s' : subkey E) sp : cut_from s0 s sp -> length (sk_hvec s') = length (sk_hvec s) -> cut_from s0 s' sp.
Proof.
  intros [H1 H2 H3] H. constructor; [lia|exact H2|]. intros Hne. apply H3. intros He. rewrite He in H. apply Hne.
  destruct (sk_hvec s'); [reflexivity|discriminate H].
Qed.
Lemma rerand_hv_spec {E : env} m (pp : pubparam E) old i g s sp :
  exists s', length (sk_hvec s') = length (sk_hvec s) /\
  match rerand_new m pp old i s g with
  | Ok (s2, g') => rerand_hv m pp old i g (s, sp) = (Ok g', (s', sp)) /\ s2 = s'
  | Err e => rerand_hv m pp old i g (s, sp) = (Err e, (s', sp))
  | Panic p => rerand_hv m pp old i g (s, sp) = (Panic p, (s', sp))
  end.
Proof.
  unfold rerand_new, rerand_hv, sret, sbind, slift, on_sub, run_mut. destruct (i =? 0)%nat; [exists s; auto|].
  destruct (sample_then_update (sha512 E) g DOM_SEP_SK_UPDATE) as [[r g']|e|p]; cbn [bind]; try (exists s; auto; fail).
  destruct (prng_eqb g' old); [exists s; auto|]. cbn [fst snd].
  pose proof (randomization_len m pp r s) as Hl.
  destruct (randomization m pp r s) as [[[]|e|p] s'] eqn:He; cbn [bind snd] in *; exists s'; auto.
Qed.

(** Freed blocks after some work with the delegator [s0]. *)
Definition more_freed {E} (P : policy) (s0 : subkey E) (fr fr' : hfreed E) : Prop :=
  exists nw, fr' = nw ++ fr /\ Forall (fun b => forall x, In (Some x) b -> x = last_entry s0) nw /\ (clears P = true -> nw = []).
Lemma more_freed_refl {E} P (s0 : subkey E) fr : more_freed P s0 fr fr.
Proof. exists []. auto. Qed.
Lemma more_freed_trans {E} P (s0 : subkey E) a b c : more_freed P s0 a b -> more_freed P s0 b c -> more_freed P s0 a c.
Proof.
  intros (n1 & -> & H1 & H2) (n2 & -> & H3 & H4). exists (n2 ++ n1). rewrite app_assoc. split; [reflexivity|].
  split; [apply Forall_app; auto|]. intros H. rewrite H2, H4 by exact H. reflexivity.
Qed.
Lemma more_freed_drop {E} P (s0 : subkey E) s fr : (forall x, In (Some x) (snd s) -> x = last_entry s0) -> more_freed P s0 fr (drop_sub P s fr).
Proof.
  intros H. unfold drop_sub. destruct (clears P) eqn:Hc; [apply more_freed_refl|]. exists [snd s]. split; [reflexivity|].
  split; [constructor; [exact H|constructor]|congruence].
Qed.

Definition cut_ok {E} (s0 : subkey E) (s : hsub E) : Prop := cut_from s0 (fst s) (snd s).
Lemma firstn_app_exact {A} (l1 l2 : list A) : firstn (length l1) (l1 ++ l2) = l1.
Proof. rewrite firstn_app, Nat.sub_diag, firstn_all, app_nil_r. reflexivity. Qed.
Lemma owned_eq {E A} P (f : st (hsub E) A) s l fr r s' : f s = (r, s') ->
  owned P f s (l, fr) = (match r with Ok a => (Ok (a, s'), (l, fr)) | Err e => (Err e, (l, drop_sub P s' fr)) | Panic p => (Panic p, (l, drop_sub P s' fr)) end).
Proof. intros H. unfold owned. rewrite H. destruct r; reflexivity. Qed.
Lemma loop_hv_spec {E : env} P m (pp : pubparam E) old (s0 : hsub E) post : forall gl i done g fr,
  length done = i -> Forall (cut_ok (fst s0)) done ->
  exists add fr', Forall (cut_ok (fst s0)) add /\ more_freed P (fst s0) fr fr' /\
  match update_loop m pp old i gl (map fst (s0 :: done ++ post)) g with
  | Ok (l', g') => update_loop_hv P m pp old i gl g (s0 :: done ++ post, fr) = (Ok g', (s0 :: add ++ post, fr')) /\ l' = map fst (s0 :: add ++ post)
  | Err e => update_loop_hv P m pp old i gl g (s0 :: done ++ post, fr) = (Err e, (s0 :: add ++ post, fr'))
  | Panic p => update_loop_hv P m pp old i gl g (s0 :: done ++ post, fr) = (Panic p, (s0 :: add ++ post, fr'))
  end.
Proof.
  induction gl as [|tv gl IH]; intros i done g fr Hi Hdone; cbn [update_loop_hv update_loop].
  - exists done, fr. split; [exact Hdone|]. split; [apply more_freed_refl|]. split; reflexivity.
  - assert (Hstop : exists add fr', Forall (cut_ok (fst s0)) add /\ more_freed P (fst s0) fr fr' /\ (add = done /\ fr' = fr)).
    { exists done, fr. split; [exact Hdone|]. split; [apply more_freed_refl|]. auto. }
    unfold sbind, sget, sret. cbn [fst snd].
    rewrite <- skipn_map. unfold slift.
    destruct (dup_loop m (pp_depth pp) tv (skipn (i + 1) (map fst (s0 :: done ++ post)))) as [[]|e|p];
      try (destruct Hstop as (a & f & Ha & Hf & -> & ->); exists done, fr; split; [exact Hdone|]; split; [exact Hf|]; cbn [bind]; auto; fail).
    cbn [bind map nth_res nth_error].
    destruct (delegate_blocks E m (tv_time tv) (pp_depth pp) (fst s0) []) as (nw & Hdel & Hcut). rewrite app_nil_r in Hdel.
    rewrite (owned_eq _ _ _ _ _ _ _ Hdel). unfold run_mut.
    destruct (delegate m (tv_time tv) (pp_depth pp) (fst s0)) as [[[]|e|p] s1]; cbn [fst snd bind] in *.
    2,3: exists done, (drop_sub P (s1, nw) fr); split; [exact Hdone|]; split; [apply more_freed_drop; exact (cf_only _ _ _ Hcut)|reflexivity].
    destruct (rerand_hv_spec m pp old i g s1 nw) as (s2 & Hlen & Hre).
    pose proof (cut_from_len _ _ s2 _ Hcut Hlen) as Hcut2.
    destruct (rerand_new m pp old i s1 g) as [[s2' g']|e|p]; cbn [bind].
    2,3: rewrite (owned_eq _ _ _ _ _ _ _ Hre); exists done, (drop_sub P (s2, nw) fr); split; [exact Hdone|]; split; [apply more_freed_drop; exact (cf_only _ _ _ Hcut2)|reflexivity].
    destruct Hre as [Hre ->]. rewrite (owned_eq _ _ _ _ _ _ _ Hre).
    assert (Hins : forall (A : Type) (a x : A) l1 l2, length l1 = i -> insert_at (i + 1) x (a :: l1 ++ l2) = Ok (a :: (l1 ++ [x]) ++ l2)).
    { intros A a x l1 l2 H. unfold insert_at. cbn [length]. rewrite app_length.
      replace (i + 1 <=? S (length l1 + length l2))%nat with true by lia. replace (i + 1)%nat with (S (length l1)) by lia. cbn [firstn skipn app].
      rewrite firstn_app_exact, skipn_app, skipn_all, Nat.sub_diag. cbn [app skipn]. rewrite <- app_assoc. reflexivity. }
    rewrite Hins by exact Hi. rewrite map_app, Hins by (rewrite map_length; exact Hi). cbn [bind].
    destruct (IH (S i) (done ++ [(s2, nw)]) g' fr) as (add & fr' & Ha & Hf & Hres).
    { rewrite app_length, Hi. cbn [length]. lia. }
    { apply Forall_app. split; [exact Hdone|]. constructor; [exact Hcut2|constructor]. }
    exists add, fr'. split; [exact Ha|]. split; [exact Hf|]. cbn [map] in Hres. rewrite !map_app in Hres. cbn [map fst snd] in Hres |- *. try rewrite !map_app. exact Hres.
Qed.

(** * update *)
Lemma drop_until_hv_spec {E : env} P dt : forall (l : list (hsub E)) fr,
  exists fr', (forall s0 : subkey E, more_freed P s0 fr fr') /\
  match drop_until dt (map fst l) with
  | Ok l' => exists pre post, l = pre ++ post /\ l' = map fst post /\ drop_until_hv P dt (clone_subs l) fr = (Ok tt, (clone_subs post, fr'))
             /\ match post with [] => False | s :: _ => sk_t (fst s) = dt end
  | Err e => False
  | Panic p => drop_until_hv P dt (clone_subs l) fr = (Panic p, ([], fr'))
  end.
Proof.
  induction l as [|s l IH]; intros fr; cbn [map drop_until clone_subs drop_until_hv].
  - exists fr. split; [intros s0; apply more_freed_refl|reflexivity].
  - cbn [fst]. destruct (sk_t (fst s) =? dt) eqn:He.
    + exists fr. split; [intros s0; apply more_freed_refl|]. exists [], (s :: l). split; [reflexivity|]. split; [reflexivity|]. split; [reflexivity|]. lia.
    + destruct (IH (drop_sub P (fst s, []) fr)) as (fr' & Hf & H). exists fr'.
      split; [intros s0; eapply more_freed_trans; [apply more_freed_drop|apply Hf]; intros x []|].
      destruct (drop_until dt (map fst l)) as [l'| |]; [|exact H|exact H].
      destruct H as (pre & post & -> & -> & H & H'). exists (s :: pre), post. auto.
Qed.
Lemma drop_subs_cut {E : env} P (s0 : subkey E) : forall l fr, Forall (cut_ok s0) l -> more_freed P s0 fr (drop_subs P l fr).
Proof.
  induction l as [|s l IH]; intros fr H; [apply more_freed_refl|]. cbn [drop_subs fold_right].
  eapply more_freed_trans; [apply IH; exact (Forall_inv_tail H)|]. apply more_freed_drop. exact (cf_only _ _ _ (Forall_inv H)).
Qed.
Lemma drop_subs_clone {E : env} P (s0 : subkey E) : forall l fr, more_freed P s0 fr (drop_subs P (clone_subs l) fr).
Proof.
  induction l as [|s l IH]; intros fr; [apply more_freed_refl|]. cbn [clone_subs map drop_subs fold_right].
  eapply more_freed_trans; [apply IH|]. apply more_freed_drop. intros x [].
Qed.
Lemma drop_subs_app {E : env} P (a b : list (hsub E)) fr : drop_subs P (a ++ b) fr = drop_subs P a (drop_subs P b fr).
Proof. apply fold_right_app. Qed.
Lemma clone_fst {E : env} (l : list (hsub E)) : map fst (clone_subs l) = map fst l.
Proof. unfold clone_subs. rewrite map_map. reflexivity. Qed.
Lemma cut_refl {E : env} (s : subkey E) : cut_from s s [].
Proof. constructor; [cbn [length]; lia|intros x []|reflexivity]. Qed.

Lemma update_blocks_all {E : env} P m (pp : pubparam E) tar seed k fr :
  match update m pp tar seed (plain k) with
  | (Ok _, sk') => exists pre s0 post new fr' t g, hk_ssk k = pre ++ s0 :: post
      /\ Ok (sk_t (fst s0)) = find_ancestor (plain k) tar
      /\ update_hv P m pp tar seed (k, fr) = (Ok tt, (HKey (hk_cs k) t (new ++ clone_subs post) g, drop_subs P (hk_ssk k) fr'))
      /\ sk' = plain (HKey (hk_cs k) t (new ++ clone_subs post) g)
      /\ Forall (cut_ok (fst s0)) new /\ more_freed P (fst s0) fr fr'
      /\ (sk_t (fst s0) = tar -> new = [(fst s0, [])])
  | (Err e, sk') => sk' = plain k /\ exists fr', update_hv P m pp tar seed (k, fr) = (Err e, (k, fr'))
      /\ (fr' = fr \/ exists s, In s (hk_ssk k) /\ more_freed P (fst s) fr fr')
  | (Panic p, sk') => sk' = plain k /\ exists fr', update_hv P m pp tar seed (k, fr) = (Panic p, (k, fr'))
      /\ (fr' = fr \/ exists s, In s (hk_ssk k) /\ more_freed P (fst s) fr fr')
  end.
Proof.
  unfold update, update_hv. unfold sbind at 1, sget at 1. cbn [plain sec_cs sec_time sec_ssk sec_prng].
  destruct (negb (hk_cs k =? pp_cs pp)); [split; [reflexivity|]; exists fr; auto|].
  unfold sbind, slift, sget, sput, sret.
  destruct (shl64 m (pp_depth pp)) as [p|e|p]; cbn [bind]; [|split; [reflexivity|]; exists fr; auto|split; [reflexivity|]; exists fr; auto].
  destruct (sub64 m p 1) as [mt|e|q]; [|split; [reflexivity|]; exists fr; auto|split; [reflexivity|]; exists fr; auto].
  destruct ((tar <=? hk_time k) || (mt <? tar)); [split; [reflexivity|]; exists fr; auto|].
  fold (plain k). destruct (find_ancestor (plain k) tar) as [dt|e|q] eqn:Hfa; [|split; [reflexivity|]; exists fr; auto|split; [reflexivity|]; exists fr; auto].
  assert (Hex : exists s, In s (hk_ssk k)).
  { unfold find_ancestor in Hfa. cbn [plain sec_ssk] in Hfa. destruct (hk_ssk k) as [|s l]; [discriminate Hfa|]. exists s. left. reflexivity. }
  destruct Hex as [s Hs].
  unfold new_key_hv, sbind, slift, sget, sret.
  destruct (rerandomize _ _ _ _) as [g|e|q].
  2,3: split; [reflexivity|]; eexists; split; [reflexivity|]; right; exists s; split; [exact Hs|apply drop_subs_clone].
  cbn [fst snd].
  destruct (drop_until_hv_spec P dt (hk_ssk k) fr) as (fr1 & Hf1 & Hd).
  destruct (drop_until dt (map fst (hk_ssk k))) as [l'|e|q].
  2: destruct Hd.
  2: rewrite Hd; split; [reflexivity|]; eexists; split; [reflexivity|]; right; exists s; split; [exact Hs|apply Hf1].
  destruct Hd as (pre & post0 & Hl & -> & Hd & Hdt). destruct post0 as [|s0 post]; [destruct Hdt|]. rewrite Hd.
  assert (Hs0 : In s0 (hk_ssk k)) by (rewrite Hl; apply in_or_app; right; left; reflexivity).
  cbn [map clone_subs fst snd].
  destruct (dt =? tar) eqn:Heq.
  { exists pre, s0, post, [(fst s0, [])], fr1, dt, g. split; [exact Hl|]. split; [rewrite Hdt; reflexivity|]. split; [reflexivity|].
    split; [unfold plain; cbn [hk_cs hk_time hk_ssk hk_prng app map fst]; f_equal; f_equal; symmetry; apply clone_fst|].
    split; [constructor; [apply cut_refl|constructor]|]. split; [apply Hf1|reflexivity]. }
  assert (Hdrop : forall add fr', Forall (cut_ok (fst s0)) add -> more_freed P (fst s0) fr1 fr' ->
    more_freed P (fst s0) fr (drop_subs P ((fst s0, []) :: add ++ clone_subs post) fr')).
  { intros add fr' Ha Hf'. cbn [drop_subs fold_right]. fold (drop_subs P (add ++ clone_subs post) fr'). rewrite drop_subs_app.
    eapply more_freed_trans; [apply Hf1|]. eapply more_freed_trans; [exact Hf'|]. eapply more_freed_trans; [apply (drop_subs_clone P (fst s0) post)|].
    eapply more_freed_trans; [apply (drop_subs_cut P (fst s0) add), Ha|]. apply more_freed_drop. intros x []. }
  destruct (tv_init m tar (pp_depth pp)) as [tv|e|q].
  2,3: split; [reflexivity|]; eexists; split; [reflexivity|]; right; exists s0; split; [exact Hs0|]; apply (Hdrop []); [constructor|apply more_freed_refl].
  destruct (gamma_list m tv (pp_depth pp)) as [gl|e|q].
  2,3: split; [reflexivity|]; eexists; split; [reflexivity|]; right; exists s0; split; [exact Hs0|]; apply (Hdrop []); [constructor|apply more_freed_refl].
  destruct (loop_hv_spec P m pp (hk_prng k) (fst s0, []) (clone_subs post) gl 0 [] g fr1 eq_refl (Forall_nil _)) as (add & fr2 & Ha & Hf2 & Hloop).
  cbn [app map fst] in Hloop, Ha, Hf2. rewrite clone_fst in Hloop. fold (clone_subs post).
  destruct (update_loop m pp (hk_prng k) 0 gl (fst s0 :: map fst post) g) as [[l' g']|e|q].
  2,3: rewrite Hloop; split; [reflexivity|]; eexists; split; [reflexivity|]; right; exists s0; split; [exact Hs0|apply Hdrop; assumption].
  destruct Hloop as [Hloop ->]. rewrite Hloop. cbn [fst snd]. rewrite remove_at_0.
  rewrite map_app, clone_fst.
  destruct (add ++ clone_subs post) as [|s1 rest] eqn:He.
  { assert (He' : map fst add ++ map fst post = []) by (rewrite <- (clone_fst post), <- map_app, He; reflexivity).
    rewrite He'. cbn [nth_res nth_error]. split; [reflexivity|]. eexists. split; [reflexivity|]. right. exists s0. split; [exact Hs0|].
    apply app_eq_nil in He as [_ He]. cbn [drop_subs fold_right].
    eapply more_freed_trans; [apply Hf1|]. eapply more_freed_trans; [exact Hf2|]. apply more_freed_drop. intros x []. }
  assert (He' : map fst add ++ map fst post = fst s1 :: map fst rest) by (rewrite <- (clone_fst post), <- map_app, He; reflexivity).
  rewrite He'. cbn [nth_res nth_error].
  exists pre, s0, post, add, (drop_sub P (fst s0, []) fr2), (sk_t (fst s1)), g'. rewrite He.
  split; [exact Hl|]. split; [rewrite Hdt; reflexivity|]. split; [reflexivity|]. split; [reflexivity|]. split; [exact Ha|].
  split; [eapply more_freed_trans; [apply Hf1|]; eapply more_freed_trans; [exact Hf2|]; apply more_freed_drop; intros x []|]. lia.
Qed.

Lemma update_hv_same : forall (E : env) (P : policy) m (pp : pubparam E) tar seed k fr,
  exists k' fr', update_hv P m pp tar seed (k, fr) = (fst (update m pp tar seed (plain k)), (k', fr'))
    /\ plain k' = snd (update m pp tar seed (plain k))
    /\ (fst (update m pp tar seed (plain k)) <> Ok tt -> k' = k).
Proof.
  intros E P m pp tar seed k fr. pose proof (update_blocks_all P m pp tar seed k fr) as H.
  destruct (update m pp tar seed (plain k)) as [[[]|e|p] sk']; cbn [fst snd].
  - destruct H as (pre & s0 & post & new & fr' & t & g & _ & _ & H & Hp & _). rewrite H. eexists; eexists; split; [reflexivity|]. split; [symmetry; exact Hp|]. intros Hn. contradiction Hn; reflexivity.
  - destruct H as (-> & fr' & H & _). rewrite H. eexists; eexists; split; [reflexivity|]. auto.
  - destruct H as (-> & fr' & H & _). rewrite H. eexists; eexists; split; [reflexivity|]. auto.
Qed.

Lemma update_hv_live : forall (E : env) (P : policy) m (pp : pubparam E) tar seed k fr k' fr',
  update_hv P m pp tar seed (k, fr) = (Ok tt, (k', fr')) ->
  exists pre s0 post new, hk_ssk k = pre ++ s0 :: post /\ hk_ssk k' = new ++ map (fun s => (fst s, [])) post
    /\ find_ancestor (plain k) tar = Ok (sk_t (fst s0))
    /\ (forall s sp, In (s, sp) new -> cut_from (fst s0) s sp)
    /\ (sk_t (fst s0) = tar -> new = [(fst s0, [])]).
Proof.
  intros E P m pp tar seed k fr k' fr' Hu. pose proof (update_blocks_all P m pp tar seed k fr) as H.
  destruct (update m pp tar seed (plain k)) as [[[]|e|p] sk'].
  - destruct H as (pre & s0 & post & new & fr2 & t & g & Hl & Hfa & H & _ & Hc & _ & Hsame). rewrite Hu in H. injection H as -> _.
    exists pre, s0, post, new. split; [exact Hl|]. split; [reflexivity|]. split; [symmetry; exact Hfa|]. split; [|exact Hsame].
    intros s sp Hin. rewrite Forall_forall in Hc. exact (Hc _ Hin).
  - destruct H as (_ & fr2 & H & _). rewrite Hu in H. discriminate H.
  - destruct H as (_ & fr2 & H & _). rewrite Hu in H. discriminate H.
Qed.

Lemma drop_subs_freed {E : env} P : forall (l : list (hsub E)) fr, exists nw, drop_subs P l fr = nw ++ fr
  /\ (forall b, In b nw -> exists s, In s l /\ b = snd s) /\ (clears P = true -> nw = []) /\ (clears P = false -> nw = map snd l).
Proof.
  induction l as [|s l IH]; intros fr.
  - exists []. split; [reflexivity|]. split; [intros b []|]. auto.
  - destruct (IH fr) as (nw & H1 & H2 & H3 & H4). cbn [drop_subs fold_right]. fold (drop_subs P l fr). rewrite H1. unfold drop_sub.
    destruct (clears P).
    + exists nw. split; [reflexivity|]. split; [intros b Hb; destruct (H2 b Hb) as (s' & Hs & ->); exists s'; split; [right; exact Hs|reflexivity]|]. split; [exact H3|discriminate].
    + exists (snd s :: nw). split; [reflexivity|]. split; [|split; [discriminate|intros _; cbn [map]; rewrite H4; reflexivity]].
      intros b [<-|Hb]; [exists s; split; [left; reflexivity|reflexivity]|]. destruct (H2 b Hb) as (s' & Hs & ->). exists s'. split; [right; exact Hs|reflexivity].
Qed.

Lemma update_hv_freed : forall (E : env) (P : policy) m (pp : pubparam E) tar seed k fr r k' fr',
  update_hv P m pp tar seed (k, fr) = (r, (k', fr')) ->
  exists nw, fr' = nw ++ fr
    /\ (forall b, In b nw -> (exists s, In s (hk_ssk k) /\ b = snd s)
                             \/ exists s, In s (hk_ssk k) /\ forall x, In (Some x) b -> x = last_entry (fst s))
    /\ (clears P = true -> nw = [])
    /\ (clears P = false -> r = Ok tt -> forall s, In s (hk_ssk k) -> In (snd s) nw).
Proof.
  intros E P m pp tar seed k fr r k' fr' Hu. pose proof (update_blocks_all P m pp tar seed k fr) as H.
  assert (Hbad : forall fr2, (fr2 = fr \/ (exists s, In s (hk_ssk k) /\ more_freed P (fst s) fr fr2)) -> r <> Ok tt ->
    exists nw, fr2 = nw ++ fr
    /\ (forall b, In b nw -> (exists s, In s (hk_ssk k) /\ b = snd s)
                             \/ exists s, In s (hk_ssk k) /\ forall x, In (Some x) b -> x = last_entry (fst s))
    /\ (clears P = true -> nw = [])
    /\ (clears P = false -> r = Ok tt -> forall s, In s (hk_ssk k) -> In (snd s) nw)).
  { intros fr2 [->|(s & Hs & nw & -> & Hf & Hc)] Hr.
    - exists []. split; [reflexivity|]. split; [intros b []|]. split; [reflexivity|]. intros _ Hx. contradiction.
    - exists nw. split; [reflexivity|]. split; [|split; [exact Hc|intros _ Hx; contradiction]]. intros b Hb. right. exists s. split; [exact Hs|].
      rewrite Forall_forall in Hf. exact (Hf b Hb). }
  destruct (update m pp tar seed (plain k)) as [[[]|e|p] sk'].
  - destruct H as (pre & s0 & post & new & fr2 & t & g & Hl & Hfa & H & _ & Hc & Hf & _). rewrite Hu in H. injection H as -> -> ->.
    destruct Hf as (nw & -> & Hf & Hcl). destruct (drop_subs_freed P (hk_ssk k) (nw ++ fr)) as (nw2 & H1 & H2 & H3 & H4). rewrite H1.
    exists (nw2 ++ nw). split; [apply app_assoc|]. split; [|split].
    + intros b Hb. apply in_app_or in Hb as [Hb|Hb]; [left; exact (H2 b Hb)|right]. exists s0.
      split; [rewrite Hl; apply in_or_app; right; left; reflexivity|]. rewrite Forall_forall in Hf. exact (Hf b Hb).
    + intros Ht. rewrite H3, Hcl by exact Ht. reflexivity.
    + intros Ht _ s Hs. apply in_or_app. left. rewrite (H4 Ht). apply in_map, Hs.
  - destruct H as (_ & fr2 & H & Hf). rewrite Hu in H. injection H as -> -> ->. apply Hbad; [exact Hf|discriminate].
  - destruct H as (_ & fr2 & H & Hf). rewrite Hu in H. injection H as -> -> ->. apply Hbad; [exact Hf|discriminate].
Qed.

(** * Keys that the program makes *)
Lemma last_entry_honest {E} (pp : pubparam E) x t v r : pp_ok pp -> (length v < pp_depth pp)%nat ->
  last_entry (honest_ssk pp x t v r) = g1_mul r (nth (pp_depth pp) (pp_hlist pp) g1_zero) /\ In (last_entry (honest_ssk pp x t v r)) (sk_hvec (honest_ssk pp x t v r)).
Proof.
  intros Hpp Hv. pose proof (last_hv pp x t v r Hpp Hv) as Hlast. unfold last_entry, last_hvector_coeff in *.
  destruct (sk_hvec (honest_ssk pp x t v r)) as [|a l]; [discriminate Hlast|]. rewrite last_nth.
  unfold nth_res in Hlast. destruct (nth_error (a :: l) (length (a :: l) - 1)) as [y|] eqn:Hy; [|discriminate Hlast].
  injection Hlast as ->. rewrite (nth_error_nth _ _ _ Hy). split; [reflexivity|exact (nth_error_In _ _ Hy)].
Qed.
Lemma honest_last {E} (pp : pubparam E) x s : pp_ok pp -> honest pp x s -> exists r, last_entry s = g1_mul r (nth (pp_depth pp) (pp_hlist pp) g1_zero).
Proof.
  intros Hpp (v & r & Hn & ->). exists r. apply last_entry_honest; [exact Hpp|]. exact (proj2 (node_at_turn _ _ _ Hn)).
Qed.

Lemma ancestor_is_last {E} (pp : pubparam E) x sk tar (s : subkey E) : pp_ok pp -> good_sk pp x sk -> sec_time sk < tar <= last_time (pp_depth pp) ->
  find_ancestor sk tar = Ok (sk_t s) -> sk_t s <= tar /\ forall s', In s' (sec_ssk sk) -> ~ (sk_t s < sk_t s' <= tar).
Proof.
  intros Hpp Hg Ht Hfa. destruct (find_ancestor_good pp x sk tar Hpp Hg Ht) as (pre & ta & va & r & post & [Hl Hn Hc Hpre _ Hpost] & Hfa' & _).
  rewrite Hfa in Hfa'. injection Hfa' as ->. split; [lia|]. intros s' Hs'. rewrite Hl in Hs'. rewrite Forall_forall in Hpre, Hpost.
  apply in_app_or in Hs' as [H|[<-|H]].
  - specialize (Hpre _ H). lia.
  - cbn [honest_ssk sk_t]. lia.
  - specialize (Hpost _ H). lia.
Qed.

Lemma update_hv_first {E} (L : env_laws E) (P : policy) m (pp : pubparam E) x tar seed k fr k' fr' :
  pp_ok pp -> good_sk pp x (plain k) -> update_hv P m pp tar seed (k, fr) = (Ok tt, (k', fr')) ->
  sec_time (plain k) < tar /\ good_sk pp x (plain k') /\ hk_time k' = tar
  /\ exists s1 rest va r w, hk_ssk k' = s1 :: rest /\ fst s1 = honest_ssk pp x tar (va ++ w) r /\ node_at (pp_depth pp) tar (va ++ w)
     /\ (forall s y, In s (hk_ssk k') -> In (Some y) (snd s) -> y = last_entry (fst s1))
     /\ (~ In tar (map sk_t (map fst (hk_ssk k))) -> In (Some (last_entry (fst s1))) (snd s1)).
Proof.
  intros Hpp Hg Hu. destruct (update_hv_same E P m pp tar seed k fr) as (k2 & fr2 & H & Hp & _). rewrite Hu in H.
  assert (Hup : update m pp tar seed (plain k) = (Ok tt, plain k')).
  { injection H as Hr <- <-. destruct (update m pp tar seed (plain k)). cbn [fst snd] in *. congruence. }
  clear k2 fr2 H Hp.
  assert (Htar : sec_time (plain k) < tar <= last_time (pp_depth pp)).
  { pose proof (update_cases L m pp x (plain k) tar seed Hpp Hg) as Hc. unfold in_range in Hc.
    destruct ((sec_time (plain k) <? tar) && (tar <=? last_time (pp_depth pp))) eqn:Hb; [lia|congruence]. }
  destruct (update_good_ok L m pp x (plain k) tar seed Hpp Hg Htar) as [(sk2 & Hk & Hgk & Ht)|Hk]; [|congruence].
  rewrite Hup in Hk. injection Hk as <-.
  split; [apply Htar|]. split; [exact Hgk|]. split; [exact Ht|].
  destruct (update_hv_live E P m pp tar seed k fr k' fr' Hu) as (pre & s0 & post & new & Hl & Hl' & Hfa & Hnew & Hsame).
  destruct (ancestor_is_last pp x (plain k) tar (fst s0) Hpp Hg Htar Hfa) as [Hle Hno].
  assert (Hs0 : In (fst s0) (sec_ssk (plain k))).
  { cbn [plain sec_ssk]. apply in_map. rewrite Hl. apply in_or_app. right. left. reflexivity. }
  destruct (N.eq_dec (sk_t (fst s0)) tar) as [Heq|Hne].
  - rewrite (Hsame Heq) in Hl'. pose proof (gsk_honest _ _ _ Hg) as Hh. rewrite Forall_forall in Hh. destruct (Hh _ Hs0) as (v & r & Hn & He).
    rewrite Heq in He, Hn. exists (fst s0, []), (map (fun s => (fst s, [])) post), v, r, []. rewrite app_nil_r. split; [exact Hl'|]. split; [exact He|]. split; [exact Hn|].
    split.
    + intros s y Hin Hy. rewrite Hl' in Hin. cbn [app] in Hin. destruct Hin as [<-|Hin]; [destruct Hy|]. apply in_map_iff in Hin as (q & <- & _). destruct Hy.
    + intros Hni. contradiction Hni. rewrite <- Heq. apply in_map. exact Hs0.
  - destruct (delegator_split L m pp x tar seed (plain k) (plain k') (fst s0) Hpp Hg Hup Hs0 ltac:(lia) Hno) as (va & r & w & ks & Hh & Hn & Hk' & Hnt).
    cbn [plain sec_ssk] in Hk'. destruct (hk_ssk k') as [|s1 rest] eqn:Hsk; [discriminate Hk'|]. cbn [map] in Hk'. injection Hk' as Hs1 _.
    pose proof (last_entry_honest pp x tar (va ++ w) r Hpp (proj2 (node_at_turn _ _ _ Hnt))) as [Hl1 Hi1]. rewrite <- Hs1 in Hl1, Hi1.
    pose proof (last_entry_honest pp x (sk_t (fst s0)) va r Hpp (proj2 (node_at_turn _ _ _ Hn))) as [Hl0 _]. rewrite <- Hh in Hl0.
    assert (Hlast : last_entry (fst s0) = last_entry (fst s1)) by congruence.
    exists s1, rest, va, r, w. split; [reflexivity|]. split; [exact Hs1|]. split; [exact Hnt|]. split.
    + intros s y Hin Hy. rewrite Hl' in Hin. apply in_app_or in Hin as [Hin|Hin].
      * destruct s as [s sp]. rewrite (cf_only _ _ _ (Hnew _ _ Hin) _ Hy). exact Hlast.
      * apply in_map_iff in Hin as (q & <- & _). destruct Hy.
    + intros _. assert (Hin : In s1 new).
      { destruct new as [|n0 new]; [|injection Hl' as <- _; left; reflexivity]. exfalso. cbn [app] in Hl'.
        assert (Hp : In (fst s1) (map fst (hk_ssk k))).
        { rewrite Hl, map_app. apply in_or_app. right. right. destruct post as [|q post]; [discriminate Hl'|]. cbn [map] in Hl'. injection Hl' as -> _. left. reflexivity. }
        pose proof (Hno (fst s1) Hp) as Hnn. rewrite Hs1 in Hnn. cbn [honest_ssk sk_t] in Hnn. lia. }
      destruct s1 as [s1 sp1]. cbn [fst snd] in *. destruct (Hnew _ _ Hin) as [Hsz _ Hall].
      rewrite Hall by (intros Hz; rewrite Hz in Hi1; destruct Hi1). rewrite Hlast.
      destruct sp1 as [|o sp1]; [|left; reflexivity]. exfalso. cbn [length] in Hsz.
      assert (length (va ++ w) = length va) as Hlen.
      { rewrite Hs1, Hh in Hsz. rewrite !honest_hvec_len in Hsz by assumption.
        pose proof (proj2 (node_at_turn _ _ _ Hnt)). pose proof (proj2 (node_at_turn _ _ _ Hn)). lia. }
      rewrite app_length in Hlen. assert (w = []) as -> by (destruct w; [reflexivity|cbn [length] in Hlen; lia]). rewrite app_nil_r in Hnt.
      apply Hne. eapply node_at_inj; eassumption.
Qed.

Lemma update_hv_nothing_new : forall (E : env) (L : env_laws E) (P : policy) m m' (pp : pubparam E) pk tar seed k fr k' fr' s y,
  pp_ok pp -> reachable m pp pk (plain k) -> update_hv P m' pp tar seed (k, fr) = (Ok tt, (k', fr')) ->
  In s (hk_ssk k') -> In (Some y) (snd s) ->
  exists s1 rest, hk_ssk k' = s1 :: rest /\ sk_t (fst s1) = tar /\ y = last_entry (fst s1) /\ In y (sk_hvec (fst s1)).
Proof.
  intros E L P m m' pp pk tar seed k fr k' fr' s y Hpp Hr Hu Hs Hy.
  destruct (reachable_good L m pp pk (plain k) Hpp Hr) as (x & _ & _ & Hg & _).
  destruct (update_hv_first L P m' pp x tar seed k fr k' fr' Hpp Hg Hu) as (_ & _ & _ & s1 & rest & va & r & w & Hk & Hs1 & Hn & Hall & _).
  exists s1, rest. split; [exact Hk|]. split; [rewrite Hs1; reflexivity|]. rewrite (Hall s y Hs Hy). split; [reflexivity|].
  rewrite Hs1. apply last_entry_honest; [exact Hpp|exact (proj2 (node_at_turn _ _ _ Hn))].
Qed.

Lemma plain_fresh {E} (sk : seckey E) : plain (fresh_key sk) = sk.
Proof. destruct sk as [c t l g]. unfold plain, fresh_key. cbn [hk_cs hk_time hk_ssk hk_prng sec_cs sec_time sec_ssk sec_prng]. rewrite map_map. cbn [fst]. rewrite map_id. reflexivity. Qed.

(** What lies in the blocks comes from one of the keys so far. *)
Definition from_keys {E} (m : mode) (pp : pubparam E) (l : list (N * bytes)) (sk : seckey E) (y : G1 E) : Prop :=
  exists n s, (n <= length l)%nat /\ In s (sec_ssk (updates m pp (firstn n l) sk)) /\ y = last_entry s.
Lemma updates_snoc {E} m (pp : pubparam E) l ts sk : updates m pp (l ++ [ts]) sk = snd (update m pp (fst ts) (snd ts) (updates m pp l sk)).
Proof. unfold updates. rewrite fold_left_app. reflexivity. Qed.
Lemma from_keys_snoc {E} m (pp : pubparam E) l ts sk y : from_keys m pp l sk y -> from_keys m pp (l ++ [ts]) sk y.
Proof.
  intros (n & s & Hn & Hs & Hy). exists n, s. rewrite app_length, firstn_app. split; [lia|].
  replace (n - length l)%nat with 0%nat by lia. rewrite app_nil_r. auto.
Qed.
Lemma from_keys_last {E} m (pp : pubparam E) l ts sk s : In s (sec_ssk (updates m pp l sk)) -> from_keys m pp (l ++ [ts]) sk (last_entry s).
Proof.
  intros H. exists (length l), s. rewrite app_length, firstn_app_exact. split; [lia|]. auto.
Qed.

Lemma updates_hv_plain {E : env} P m (pp : pubparam E) sk : forall l, plain (fst (updates_hv P m pp l (fresh_key sk, []))) = updates m pp l sk.
Proof.
  induction l as [|ts l IH] using rev_ind; [apply plain_fresh|]. unfold updates_hv. rewrite fold_left_app. fold (updates_hv P m pp l (fresh_key sk, [])).
  rewrite updates_snoc, <- IH. cbn [fold_left]. destruct (updates_hv P m pp l (fresh_key sk, [])) as [k fr].
  destruct (update_hv_same E P m pp (fst ts) (snd ts) k fr) as (k' & fr' & H & Hp & _). rewrite H. exact Hp.
Qed.
Lemma updates_hv_from : forall (E : env) (P : policy) m (pp : pubparam E) l sk y,
  in_blocks y (all_blocks (updates_hv P m pp l (fresh_key sk, []))) ->
  exists n s, (n <= length l)%nat /\ In s (sec_ssk (updates m pp (firstn n l) sk)) /\ y = last_entry s.
Proof.
  intros E P m pp l sk. change (forall y, in_blocks y (all_blocks (updates_hv P m pp l (fresh_key sk, []))) -> from_keys m pp l sk y).
  induction l as [|ts l IH] using rev_ind; intros y (b & Hb & Hy).
  - exfalso. unfold all_blocks in Hb. cbn [updates_hv fold_left fst snd fresh_key hk_ssk] in Hb. rewrite app_nil_r, map_map in Hb.
    apply in_map_iff in Hb as (s & <- & _). destruct Hy.
  - pose proof (updates_hv_plain P m pp sk l) as Hp.
    revert Hb. unfold updates_hv. rewrite fold_left_app. fold (updates_hv P m pp l (fresh_key sk, [])). cbn [fold_left].
    destruct (updates_hv P m pp l (fresh_key sk, [])) as [k fr]. cbn [fst] in Hp.
    destruct (update_hv P m pp (fst ts) (snd ts) (k, fr)) as [r [k' fr']] eqn:Hu. cbn [snd]. unfold all_blocks at 1. cbn [fst snd]. intros Hb.
    assert (Hold : forall b, In b (map snd (hk_ssk k) ++ fr) -> In (Some y) b -> from_keys m pp (l ++ [ts]) sk y).
    { intros b' Hb' Hy'. apply from_keys_snoc, IH. exists b'. auto. }
    assert (Hcur : forall s, In s (hk_ssk k) -> y = last_entry (fst s) -> from_keys m pp (l ++ [ts]) sk y).
    { intros s Hs ->. apply from_keys_last. rewrite <- Hp. cbn [plain sec_ssk]. apply in_map, Hs. }
    apply in_app_or in Hb as [Hb|Hb].
    + destruct r as [[]|e|p].
      * destruct (update_hv_live E P m pp _ _ k fr k' fr' Hu) as (pre & s0 & post & new & Hl & Hl' & _ & Hnew & _).
        rewrite Hl', map_app in Hb. apply in_app_or in Hb as [Hb|Hb].
        -- apply in_map_iff in Hb as ([s sp] & <- & Hin). apply (Hcur s0).
           ++ rewrite Hl. apply in_or_app. right. left. reflexivity.
           ++ exact (cf_only _ _ _ (Hnew _ _ Hin) _ Hy).
        -- rewrite map_map in Hb. apply in_map_iff in Hb as (q & <- & _). destruct Hy.
      * destruct (update_hv_same E P m pp (fst ts) (snd ts) k fr) as (k2 & fr2 & H & _ & Hk). rewrite Hu in H. injection H as Hr <- <-.
        rewrite Hk in Hb by congruence. apply (Hold b); [apply in_or_app; left; exact Hb|exact Hy].
      * destruct (update_hv_same E P m pp (fst ts) (snd ts) k fr) as (k2 & fr2 & H & _ & Hk). rewrite Hu in H. injection H as Hr <- <-.
        rewrite Hk in Hb by congruence. apply (Hold b); [apply in_or_app; left; exact Hb|exact Hy].
    + destruct (update_hv_freed E P m pp _ _ k fr r k' fr' Hu) as (nw & -> & Hnw & _). apply in_app_or in Hb as [Hb|Hb].
      * destruct (Hnw b Hb) as [(s & Hs & ->)|(s & Hs & Hx)].
        -- apply (Hold (snd s)); [apply in_or_app; left; apply in_map, Hs|exact Hy].
        -- exact (Hcur s Hs (Hx y Hy)).
      * apply (Hold b); [apply in_or_app; right; exact Hb|exact Hy].
Qed.

Lemma updates_good {E} (L : env_laws E) m (pp : pubparam E) x : pp_ok pp -> forall l sk, good_sk pp x sk -> good_sk pp x (updates m pp l sk).
Proof.
  intros Hpp. induction l as [|ts l IH]; intros sk Hg; [exact Hg|]. cbn [updates fold_left]. apply IH.
  pose proof (update_cases L m pp x sk (fst ts) (snd ts) Hpp Hg) as Hc. destruct (in_range pp sk (fst ts)).
  - destruct Hc as [(sk' & -> & H & _)|[-> _]]; [exact H|exact Hg].
  - rewrite Hc. exact Hg.
Qed.
Lemma updates_hv_only : forall (E : env) (L : env_laws E) (P : policy) m m' (pp : pubparam E) pk l sk y,
  pp_ok pp -> reachable m pp pk sk -> in_blocks y (all_blocks (updates_hv P m' pp l (fresh_key sk, []))) ->
  exists r, y = g1_mul r (nth (pp_depth pp) (pp_hlist pp) g1_zero).
Proof.
  intros E L P m m' pp pk l sk y Hpp Hr Hy. destruct (reachable_good L m pp pk sk Hpp Hr) as (x & _ & _ & Hg & _).
  destruct (updates_hv_from E P m' pp l sk y Hy) as (n & s & _ & Hs & ->).
  pose proof (gsk_honest _ _ _ (updates_good L m' pp x Hpp (firstn n l) sk Hg)) as Hh. rewrite Forall_forall in Hh.
  exact (honest_last pp x s Hpp (Hh s Hs)).
Qed.

Lemma freed_entry_signs : forall (E : env) (L : env_laws E) (P : policy) m m1 m2 (pp : pubparam E) pk t1 t2 seed1 seed2 sk fr k1 fr1 k2 fr2,
  pp_ok pp -> reachable m pp pk sk -> clears P = false -> ~ In t1 (map sk_t (sec_ssk sk)) ->
  update_hv P m1 pp t1 seed1 (fresh_key sk, fr) = (Ok tt, (k1, fr1)) ->
  update_hv P m2 pp t2 seed2 (k1, fr1) = (Ok tt, (k2, fr2)) ->
  t1 < t2 /\ exists s rest y, sec_ssk (plain k1) = s :: rest /\ sk_t s = t1 /\ in_blocks y fr2
    /\ forall m3 msg, verify m3 (forge_with pp (head_of s) y msg) pk pp msg = Ok true.
Proof.
  intros E L P m m1 m2 pp pk t1 t2 seed1 seed2 sk fr k1 fr1 k2 fr2 Hpp Hr Hc Hni H1 H2.
  destruct (reachable_good L m pp pk sk Hpp Hr) as (x & _ & -> & Hg & Hcs).
  assert (Hg0 : good_sk pp x (plain (fresh_key sk))) by (rewrite plain_fresh; exact Hg).
  destruct (update_hv_first L P m1 pp x t1 seed1 _ fr k1 fr1 Hpp Hg0 H1) as (_ & Hg1 & Ht1 & s1 & rest & va & r & w & Hk1 & Hs1 & Hn & _ & Hsp).
  destruct (update_hv_first L P m2 pp x t2 seed2 _ fr1 k2 fr2 Hpp Hg1 H2) as (Hlt & _). cbn [plain sec_time] in Hlt. rewrite Ht1 in Hlt.
  split; [exact Hlt|]. exists (fst s1), (map fst rest), (last_entry (fst s1)).
  split; [cbn [plain sec_ssk]; rewrite Hk1; reflexivity|]. split; [rewrite Hs1; reflexivity|]. split.
  - destruct (update_hv_freed E P m2 pp t2 seed2 k1 fr1 _ k2 fr2 H2) as (nw & -> & _ & _ & Hin). exists (snd s1).
    split; [apply in_or_app; left; apply Hin; [exact Hc|reflexivity|rewrite Hk1; left; reflexivity]|].
    apply Hsp. replace (map fst (hk_ssk (fresh_key sk))) with (sec_ssk (plain (fresh_key sk))) by reflexivity. rewrite plain_fresh. exact Hni.
  - intros m3 msg. pose proof (last_entry_honest pp x t1 (va ++ w) r Hpp (proj2 (node_at_turn _ _ _ Hn))) as [Hl _].
    replace (forge_with pp (head_of (fst s1)) (last_entry (fst s1)) msg) with (honest_sig pp x t1 (va ++ w) (msg_scalar pp msg) r).
    { apply (verify_honest L); assumption. }
    rewrite Hs1, Hl. unfold forge_with, honest_sig. cbn [head_of hd_t hd_g2r hd_hpoly honest_ssk sk_t sk_g2r sk_hpoly]. f_equal. unfold sig_val. g1_solve L.
Qed.

(** * The freed blocks of a successful update, exactly *)
Lemma owned_ok {E A} P (f : st (hsub E) A) s l fr x l' fr' : owned P f s (l, fr) = (Ok x, (l', fr')) -> l' = l /\ fr' = fr.
Proof. unfold owned. destruct (f s) as [[a|e|p] s']; intros H; inversion H; auto. Qed.
Lemma loop_hv_ok {E : env} P m (pp : pubparam E) old : forall gl i g s0 l fr g' l' fr',
  update_loop_hv P m pp old i gl g (s0 :: l, fr) = (Ok g', (l', fr')) -> fr' = fr /\ exists l2, l' = s0 :: l2.
Proof.
  induction gl as [|tv gl IH]; intros i g s0 l fr g' l' fr'; cbn [update_loop_hv]; unfold sbind, sget, sret, slift; cbn [fst snd].
  - intros H. injection H as _ <- <-. eauto.
  - destruct (dup_loop _ _ _ _) as [[]|e|p]; try (intros H; inversion H; fail); [intros H; injection H as _ <- <-; eauto|].
    cbn [nth_res nth_error].
    destruct (owned P _ _ _) as [[[[] s1]|e|p] [l1 fr1]] eqn:H1; try (intros H; inversion H; fail). apply owned_ok in H1 as [-> ->].
    destruct (owned P _ _ _) as [[[g1 s2]|e|p] [l2 fr2]] eqn:H2; try (intros H; inversion H; fail). apply owned_ok in H2 as [-> ->].
    unfold insert_at. destruct (_ <=? _)%nat; [|intros H; inversion H].
    replace (i + 1)%nat with (S i) by lia. cbn [firstn skipn app snd]. apply IH.
Qed.
Lemma drop_until_hv_ok {E : env} P dt : clears P = false -> forall (l : list (hsub E)) fr l' fr',
  drop_until_hv P dt (clone_subs l) fr = (Ok tt, (l', fr')) ->
  exists pre s0 post, l = pre ++ s0 :: post /\ sk_t (fst s0) = dt /\ Forall (fun s => sk_t (fst s) <> dt) pre
    /\ l' = clone_subs (s0 :: post) /\ fr' = repeat [] (length pre) ++ fr.
Proof.
  intros Hc. induction l as [|s l IH]; intros fr l' fr'; cbn [clone_subs map drop_until_hv fst]; [discriminate|].
  destruct (sk_t (fst s) =? dt) eqn:He.
  - intros H. injection H as <- <-. exists [], s, l. split; [reflexivity|]. split; [lia|]. split; [constructor|]. split; reflexivity.
  - intros H. apply IH in H as (pre & s0 & post & -> & Ht & Hf & -> & ->). exists (s :: pre), s0, post.
    split; [reflexivity|]. split; [exact Ht|]. split; [constructor; [lia|exact Hf]|]. split; [reflexivity|].
    unfold drop_sub. rewrite Hc. cbn [length repeat snd]. change ([] :: repeat [] (length pre)) with ([[]] ++ repeat ([] : hslots E) (length pre)).
    rewrite (app_assoc_reverse [[]] (repeat [] (length pre)) fr), (app_assoc [[]] (repeat [] (length pre)) fr).
    rewrite (repeat_cons (length pre) ([] : hslots E) : [[]] ++ repeat [] (length pre) = _), <- app_assoc. reflexivity.
Qed.
Lemma update_hv_freed_exact : forall (E : env) (P : policy) m (pp : pubparam E) tar seed k fr k' fr',
  clears P = false -> update_hv P m pp tar seed (k, fr) = (Ok tt, (k', fr')) ->
  exists pre s0 post, hk_ssk k = pre ++ s0 :: post /\ find_ancestor (plain k) tar = Ok (sk_t (fst s0))
    /\ Forall (fun s => sk_t (fst s) <> sk_t (fst s0)) pre
    /\ fr' = map snd (hk_ssk k) ++ repeat [] (length pre + if sk_t (fst s0) =? tar then 0%nat else 1%nat) ++ fr.
Proof.
  intros E P m pp tar seed k fr k' fr' Hc. unfold update_hv. destruct (negb _); [discriminate|].
  destruct (let! p := shl64 m (pp_depth pp) in sub64 m p 1) as [mt|e|q]; try discriminate.
  destruct (_ || _); [discriminate|]. destruct (find_ancestor (plain k) tar) as [dt|e|q] eqn:Hfa; try discriminate.
  destruct (new_key_hv _ _ _ _ _ _ _ _) as [[[t g]|e|q] [l fr1]] eqn:Hn; try discriminate. intros H. injection H as _ <-.
  destruct (drop_subs_freed P (hk_ssk k) fr1) as (nw & Hd & _ & _ & Hnw). rewrite Hd, (Hnw Hc).
  revert Hn. unfold new_key_hv, sbind, slift, sget, sret. destruct (rerandomize _ _ _ _) as [g0|e|q]; try (intros H; inversion H; fail).
  cbn [fst snd]. destruct (drop_until_hv P dt (clone_subs (hk_ssk k)) fr) as [[[]|e|q] [l1 fr0]] eqn:Hu; try (intros H; inversion H; fail).
  apply (drop_until_hv_ok P dt Hc) in Hu as (pre & s0 & post & Hl & Ht & Hf & -> & ->). cbn [fst snd clone_subs map].
  intros Hn. exists pre, s0, post. split; [exact Hl|]. split; [rewrite Ht; reflexivity|]. split; [rewrite Ht; exact Hf|]. rewrite Ht. f_equal.
  destruct (dt =? tar); [injection Hn as _ _ _ <-; rewrite Nat.add_0_r; reflexivity|].
  destruct (tv_init _ _ _) as [tv|e|q]; try (inversion Hn; fail). destruct (gamma_list _ _ _) as [gl|e|q]; try (inversion Hn; fail).
  destruct (update_loop_hv _ _ _ _ _ _ _ _) as [[g1|e|q] [l2 fr2]] eqn:Hloop; try (inversion Hn; fail).
  apply loop_hv_ok in Hloop as [-> [l3 ->]]. cbn [fst snd] in Hn.
  destruct (nth_res l3 0) as [s1|e|q]; try (inversion Hn; fail). injection Hn as _ _ _ <-. unfold drop_sub. rewrite Hc. cbn [snd].
  rewrite Nat.add_comm. reflexivity.
Qed.
