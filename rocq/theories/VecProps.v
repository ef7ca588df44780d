(** Proofs about the memory of an update ([VecMem], [SpecVec]). *)
From Verif Require Import Base Env Time Hkdf Prng SpecPrng SpecTime SubKey SecretKey Keys Sig SpecKey SpecUpdate
  TimeFacts PrngFacts GroupFacts SubKeyFacts UpdateFacts KeyFacts Api HistoryFacts SpecHyg HygProps VecMem SpecVec.
From Coq Require Import Lia ZifyBool ZifyNat ZifyN Sorting.Sorted.
Local Open Scope N_scope.

(** * The same result and key as [update] *)
Lemma drop_until_v_fst {E} dt : forall (l : list (subkey E)) h, fst (drop_until_v dt l h) = drop_until dt l.
Proof.
  induction l as [|s l IH]; intros h; cbn [drop_until_v drop_until]; [reflexivity|].
  destruct (sk_t s =? dt); [reflexivity|]. unfold sbind, vec_remove0. apply IH.
Qed.
Lemma vec_insert_fst {E} P i x (l : list (subkey E)) h : fst (vec_insert P i x l h) = insert_at i x l.
Proof. unfold vec_insert. destruct (insert_at i x l); [destruct (spare h)| |]; reflexivity. Qed.
Lemma vec_remove0_fst {E} (l : list (subkey E)) h : fst (vec_remove0 l h) = remove_at 0 l.
Proof. unfold vec_remove0, remove_at. destruct l; reflexivity. Qed.

Lemma update_loop_v_fst {E} P m (pp : pubparam E) old : forall gl i l g h,
  fst (update_loop_v P m pp old i gl l g h) = update_loop m pp old i gl l g.
Proof.
  induction gl as [|tv gl IH]; intros i l g h; cbn [update_loop_v update_loop]; [reflexivity|].
  unfold sbind, slift. destruct (dup_loop m (pp_depth pp) tv (skipn (i + 1) l)) as [[]| |]; try reflexivity. cbn [bind].
  destruct (nth_res l 0) as [s0| |]; try reflexivity. cbn [bind].
  destruct (run_mut _ s0) as [s1| |]; try reflexivity. cbn [bind].
  destruct (rerand_new m pp old i s1 g) as [[s2 g']| |]; try reflexivity. cbn [bind].
  pose proof (vec_insert_fst P (i + 1) s2 l h) as Hi. destruct (vec_insert P (i + 1) s2 l h) as [[l'| |] h']; cbn [fst] in Hi;
    rewrite <- Hi; [|reflexivity|reflexivity]. cbn [bind]. apply IH.
Qed.

Lemma update_v_update : forall (E : env) (P : policy) m (pp : pubparam E) tar seed sk h,
  exists h', update_v P m pp tar seed (sk, h)
    = (fst (update m pp tar seed sk), (snd (update m pp tar seed sk), h')).
Proof.
  intros. unfold update_v, update, new_key_v, sbind, sget, slift, sput, sret.
  destruct (negb (sec_cs sk =? pp_cs pp)); [eexists; reflexivity|].
  destruct (shl64 m (pp_depth pp)) as [p| |]; cbn [bind]; try (eexists; reflexivity).
  destruct (sub64 m p 1) as [mt| |]; try (eexists; reflexivity).
  destruct ((tar <=? sec_time sk) || (mt <? tar)); [eexists; reflexivity|].
  destruct (find_ancestor sk tar) as [dt| |]; try (eexists; reflexivity).
  destruct (rerandomize _ _ _ _) as [g| |]; try (eexists; reflexivity).
  pose proof (drop_until_v_fst dt (sec_ssk sk) (Heap [] (freed h))) as Hd.
  destruct (drop_until_v dt (sec_ssk sk) (Heap [] (freed h))) as [[l| |] h1]; cbn [fst] in Hd; rewrite <- Hd; try (eexists; reflexivity).
  destruct l as [|s l]; [eexists; reflexivity|].
  destruct (dt =? tar); [eexists; reflexivity|].
  destruct (tv_init m tar (pp_depth pp)) as [tv| |]; try (eexists; reflexivity).
  destruct (gamma_list m tv (pp_depth pp)) as [gl| |]; try (eexists; reflexivity).
  pose proof (update_loop_v_fst P m pp (sec_prng sk) gl 0 (s :: l) g h1) as Hl.
  destruct (update_loop_v P m pp (sec_prng sk) 0 gl (s :: l) g h1) as [[[l' g']| |] h2]; cbn [fst] in Hl; rewrite <- Hl; try (eexists; reflexivity).
  pose proof (vec_remove0_fst l' h2) as Hr.
  destruct (vec_remove0 l' h2) as [[l''| |] h3]; cbn [fst] in Hr; rewrite <- Hr; try (eexists; reflexivity).
  destruct (nth_res l'' 0) as [s0| |]; eexists; reflexivity.
Qed.

(** * Memory of the loops *)
Lemma last_app_cons {A} (l1 : list A) a l2 d : last (l1 ++ a :: l2) d = last (a :: l2) a.
Proof.
  induction l1 as [|b l1 IH]; cbn [app].
  - revert a d. induction l2 as [|c l2 IH]; intros a d; [reflexivity|]. change (last (c :: l2) d = last (c :: l2) a).
    rewrite (IH c d), (IH c a). reflexivity.
  - rewrite <- IH. destruct (l1 ++ a :: l2) eqn:He; [destruct l1; discriminate He|]. reflexivity.
Qed.

Lemma drop_until_v_spec {E} (s0 : subkey E) post : forall pre h,
  StronglySorted N.lt (map sk_t (pre ++ s0 :: post)) ->
  drop_until_v (sk_t s0) (pre ++ s0 :: post) h
  = (Ok (s0 :: post), Heap (repeat (Some (head_of (last (s0 :: post) s0))) (length pre) ++ spare h) (freed h)).
Proof.
  induction pre as [|b pre IH]; intros h Hs; cbn [app drop_until_v].
  - rewrite N.eqb_refl. destruct h; reflexivity.
  - cbn [app map] in Hs. inversion Hs as [|? ? Hs' Hf]; subst.
    rewrite map_app, Forall_app in Hf. destruct Hf as [_ Hf]. inversion Hf; subst.
    replace (sk_t b =? sk_t s0) with false by lia. unfold sbind, vec_remove0.
    rewrite IH by assumption. cbn [spare freed length].
    rewrite (last_app_cons (b :: pre) s0 post b : last (b :: pre ++ s0 :: post) b = _).
    cbn [repeat]. rewrite repeat_cons, <- app_assoc. reflexivity.
Qed.

Lemma caps_ge P c k : (c <= caps P c k)%nat.
Proof. induction k as [|k IH]; [apply le_n|]. unfold caps in *. cbn [Nat.iter nat_rect]. unfold Nat.iter in IH. lia. Qed.
Lemma caps_next P c k : caps P c (S k) = caps P (Nat.max (grow P c) (S c)) k.
Proof. induction k as [|k IH]; [reflexivity|].
  change (Nat.max (grow P (caps P c (S k))) (S (caps P c (S k))) = caps P (Nat.max (grow P c) (S c)) (S k)).
  rewrite IH. reflexivity. Qed.

Lemma insert_at_facts {A} i (x : A) l l' : insert_at (i + 1) x l = Ok l' ->
  length l' = S (length l) /\ incl l l' /\ (forall a, nth_error l 0 = Some a -> nth_error l' 0 = Some a).
Proof.
  unfold insert_at. destruct (i + 1 <=? length l)%nat eqn:Hi; [|discriminate]. intros [= <-].
  split; [|split].
  - rewrite app_length, firstn_length. cbn [length]. rewrite skipn_length. lia.
  - intros a Ha. rewrite <- (firstn_skipn (i + 1) l) in Ha. apply in_app_or in Ha. apply in_or_app. cbn. tauto.
  - intros a Ha. destruct l as [|b l]; [discriminate Ha|]. rewrite Nat.add_1_r. exact Ha.
Qed.

Lemma loop_mem {E} P m (pp : pubparam E) old s0 : forall gl i l g h l' g' h',
  nth_error l 0 = Some s0 -> update_loop_v P m pp old i gl l g h = (Ok (l', g'), h') ->
  nth_error l' 0 = Some s0 /\ incl l l' /\ (length l <= length l')%nat
  /\ exists mv, freed h' = mv ++ freed h
     /\ Forall (fun b => exists v, b = as_slots v /\ In s0 v /\ incl v l') mv
     /\ (mv <> [] <-> exists k, (caps P (length l + length (spare h)) k < length l')%nat
                                /\ moved P (caps P (length l + length (spare h)) k) = true)
     /\ ((length l' - length l <= length (spare h))%nat /\ spare h' = skipn (length l' - length l) (spare h)
         \/ (length (spare h) < length l' - length l)%nat /\ Forall (eq None) (spare h')).
Proof.
  assert (Hbase : forall (l : list (subkey E)) h, nth_error l 0 = Some s0 ->
    nth_error l 0 = Some s0 /\ incl l l /\ (length l <= length l)%nat
  /\ exists mv, freed h = mv ++ freed h
     /\ Forall (fun b => exists v, b = as_slots v /\ In s0 v /\ incl v l) mv
     /\ (mv <> [] <-> exists k, (caps P (length l + length (spare h)) k < length l)%nat
                                /\ moved P (caps P (length l + length (spare h)) k) = true)
     /\ ((length l - length l <= length (spare h))%nat /\ spare h = skipn (length l - length l) (spare h)
         \/ (length (spare h) < length l - length l)%nat /\ Forall (eq None) (spare h))).
  { intros l h H0. split; [exact H0|]. split; [apply incl_refl|]. split; [lia|]. exists [].
    split; [reflexivity|]. split; [constructor|]. split.
    - split; [intros H; contradiction H; reflexivity|]. intros (k & Hk & _).
      pose proof (caps_ge P (length l + length (spare h)) k). lia.
    - left. rewrite Nat.sub_diag. split; [lia|reflexivity]. }
  induction gl as [|tv gl IH]; intros i l g h l' g' h' H0; cbn [update_loop_v].
  - unfold sret. intros H. injection H as <- <- <-. apply Hbase, H0.
  - unfold sbind, slift. destruct (dup_loop m (pp_depth pp) tv (skipn (i + 1) l)) as [[]| |]; try discriminate.
    { unfold sret. intros H. injection H as <- <- <-. apply Hbase, H0. }
    destruct (nth_res l 0) as [s0'| |]; try discriminate.
    destruct (run_mut _ s0') as [s1| |]; try discriminate.
    destruct (rerand_new m pp old i s1 g) as [[s2 g1]| |]; try discriminate.
    unfold vec_insert. destruct (insert_at (i + 1) s2 l) as [l1| |] eqn:Hin; try discriminate.
    apply insert_at_facts in Hin as (Hlen & Hincl & Hh0). specialize (Hh0 _ H0).
    destruct (spare h) as [|o sp] eqn:Hsp; intros H.
    + apply IH in H as (Hh' & Hi' & Hle & mv & Hfr & Hmv & Hiff & Hs); [|exact Hh0]. cbn [spare freed] in *.
      rewrite repeat_length in *.
      split; [exact Hh'|]. split; [intros a Ha; apply Hi', Hincl, Ha|]. split; [lia|].
      replace (length l1 + (grow P (length l) - length l1))%nat with (Nat.max (grow P (length l)) (S (length l))) in Hiff by lia.
      exists (mv ++ if moved P (length l) then [as_slots l] else []). split; [|split; [|split]].
      * rewrite Hfr, <- app_assoc. destruct (moved P (length l)); reflexivity.
      * apply Forall_app. split; [exact Hmv|]. destruct (moved P (length l)); constructor; [|constructor].
        exists l. split; [reflexivity|]. split; [|intros a Ha; apply Hi', Hincl, Ha].
        destruct l as [|b l2]; [discriminate H0|]. injection H0 as ->. left. reflexivity.
      * cbn [length]. rewrite Nat.add_0_r. destruct (moved P (length l)) eqn:Hm.
        -- split; [|intros _; destruct mv; discriminate]. intros _. exists 0%nat. split; [|exact Hm].
           change (length l < length l')%nat. lia.
        -- rewrite app_nil_r, Hiff. split; intros (k & Hk).
           ++ exists (S k). rewrite caps_next. exact Hk.
           ++ destruct k as [|k]; [destruct Hk as [_ Hk]; change (moved P (length l) = true) in Hk; congruence|].
              exists k. rewrite <- caps_next. exact Hk.
      * right. split; [cbn [length]; lia|]. destruct Hs as [[_ ->]|[_ Hs]]; [|exact Hs].
        apply Forall_forall. intros o Ho. assert (Ho' : In o (repeat None (grow P (length l) - length l1))).
        { rewrite <- (firstn_skipn (length l' - length l1) (repeat None _)). apply in_or_app. right. exact Ho. }
        apply repeat_spec in Ho'. symmetry. exact Ho'.
    + apply IH in H as (Hh' & Hi' & Hle & mv & Hfr & Hmv & Hiff & Hs); [|exact Hh0]. cbn [spare freed length] in *.
      split; [exact Hh'|]. split; [intros a Ha; apply Hi', Hincl, Ha|]. split; [lia|].
      replace (length l + S (length sp))%nat with (length l1 + length sp)%nat by lia.
      exists mv. split; [exact Hfr|]. split; [exact Hmv|]. split; [exact Hiff|].
      replace (length l' - length l)%nat with (S (length l' - length l1)) by lia. cbn [skipn].
      destruct Hs as [[? ?]|[? ?]]; [left|right]; (split; [lia|assumption]).
Qed.

(** * What is left *)
Lemma last_in {A} (a : A) l : In (last (a :: l) a) (a :: l).
Proof.
  revert a. induction l as [|b l IH]; intros a; [left; reflexivity|]. right.
  rewrite (last_app_cons [a] b l a : last (a :: b :: l) a = _). apply IH.
Qed.

Lemma update_v_split {E} (L : env_laws E) (P : policy) m (pp : pubparam E) x tar seed sk sk' h h' :
  pp_ok pp -> good_sk pp x sk -> update_v P m pp tar seed (sk, h) = (Ok tt, (sk', h')) ->
  exists pre s0 post new mv,
    sec_ssk sk = pre ++ s0 :: post /\ sec_ssk sk' = new ++ post /\ sec_time sk' = tar
    /\ (sk_t s0 = tar /\ new = [s0] \/ sk_t s0 < tar /\ new <> [])
    /\ freed h' = give_up P (spare h) (mv ++ freed h)
    /\ (forall b hd, In b (spare h' :: mv) -> In (Some hd) b ->
          hd = head_of s0 \/ exists s, In s (sec_ssk sk') /\ hd = head_of s)
    /\ (holds_past tar (spare h' :: mv) <->
        sk_t s0 < tar
        /\ ((exists k, (caps P (length (sec_ssk sk)) k <= length (sec_ssk sk'))%nat
                       /\ moved P (caps P (length (sec_ssk sk)) k) = true)
            \/ (post = [] /\ (length (sec_ssk sk') + 1 < length (sec_ssk sk))%nat)))
    /\ sec_time sk < tar /\ (forall s, In s (sec_ssk sk') -> tar <= sk_t s)
    /\ exists va r, s0 = honest_ssk pp x (sk_t s0) va r /\ node_at (pp_depth pp) (sk_t s0) va
       /\ (sk_t s0 < tar -> exists w ks, new = honest_ssk pp x tar (va ++ w) r :: ks /\ w <> []
                                       /\ node_at (pp_depth pp) tar (va ++ w)).
Proof.
  intros Hpp Hg Hu.
  destruct (update_v_update E P m pp tar seed sk h) as [h2 Hv]. rewrite Hu in Hv.
  assert (Hup : update m pp tar seed sk = (Ok tt, sk')).
  { destruct (update m pp tar seed sk) as [r k]. cbn [fst snd] in Hv. congruence. }
  clear h2 Hv.
  pose proof (ppo_depth pp Hpp) as Hd.
  assert (Htar : sec_time sk < tar <= last_time (pp_depth pp)).
  { revert Hup. unfold update, sbind, sget, slift. destruct (negb _); [discriminate|].
    pose proof (max_time_ok m (pp_depth pp) Hd) as Hmax. destruct (shl64 m (pp_depth pp)) as [p| |]; try discriminate.
    cbn [bind] in Hmax. rewrite Hmax.
    destruct ((tar <=? sec_time sk) || (last_time (pp_depth pp) <? tar)) eqn:Hb; [discriminate|]. intros _. lia. }
  assert (Hg' : good_sk pp x sk' /\ sec_time sk' = tar).
  { destruct (update_good_ok L m pp x sk tar seed Hpp Hg Htar) as [(k & Hk & Hgk & Ht)|Hk]; [|congruence].
    rewrite Hup in Hk. injection Hk as ->. auto. }
  destruct Hg' as [Hg' Htime].
  assert (Hcur : forall s, In s (sec_ssk sk') -> tar <= sk_t s).
  { pose proof (gsk_til _ _ _ Hg') as Ht. apply tiling_ge in Ht. rewrite Htime, Forall_map, Forall_forall in Ht. exact Ht. }
  destruct (find_ancestor_good pp x sk tar Hpp Hg Htar) as (pre & ta & va & r & post & Hsp & Hfa & Hdu).
  destruct Hsp as [Hl Hn Hc _ _ Hpost]. set (s0 := honest_ssk pp x ta va r) in *.
  assert (Hs0 : sk_t s0 = ta) by reflexivity.
  assert (Hsort : StronglySorted N.lt (map sk_t (pre ++ s0 :: post))).
  { rewrite <- Hl. eapply tiling_sorted. apply (gsk_til _ _ _ Hg). }
  revert Hu. unfold update_v. rewrite (gsk_cs pp x sk Hg), N.eqb_refl. cbn [negb].
  rewrite (max_time_ok m (pp_depth pp) Hd).
  replace (tar <=? sec_time sk) with false by lia.
  replace (last_time (pp_depth pp) <? tar) with false by lia. cbn [orb]. rewrite Hfa.
  unfold new_key_v, sbind, slift, sret.
  destruct (rerandomize _ _ _ _) as [g| |]; try discriminate.
  rewrite Hl, <- Hs0, (drop_until_v_spec s0 post pre _ Hsort). cbn [spare freed]. rewrite app_nil_r.
  destruct (N.eqb_spec (sk_t s0) tar) as [Heq|Hne].
  - intros H. injection H as <- <-. cbn [spare freed sec_ssk sec_time] in *.
    exists pre, s0, post, [s0], []. split; [reflexivity|]. split; [reflexivity|]. split; [exact Heq|].
    split; [left; split; [exact Heq|reflexivity]|]. split; [reflexivity|]. split.
    + intros b hd [<-|[]] Hin. apply repeat_spec in Hin. injection Hin as ->. right.
      exists (last (s0 :: post) s0). split; [apply last_in|reflexivity].
    + split.
      2:{ split; [apply Htar|]. split; [exact Hcur|]. exists va, r. split; [reflexivity|]. split; [exact Hn|]. lia. }
      split; [|lia]. intros (b & hd & [<-|[]] & Hin & Hlt). apply repeat_spec in Hin. injection Hin as ->.
      specialize (Hcur _ (last_in s0 post)). exfalso; exact (proj1 (N.lt_nge _ _) Hlt Hcur).
  - destruct (tv_init m tar (pp_depth pp)) as [tv| |]; try discriminate.
    destruct (gamma_list m tv (pp_depth pp)) as [gl| |]; try discriminate.
    destruct (update_loop_v P m pp (sec_prng sk) 0 gl (s0 :: post) g _) as [[[l' g']| |] h2] eqn:Hloop; try discriminate.
    apply (loop_mem P m pp (sec_prng sk) s0) in Hloop as (H0 & Hincl & Hlen & mv & Hfr & Hmv & Hiff & Hsp); [|reflexivity].
    cbn [spare freed] in *. destruct l' as [|s0' l2]; [discriminate H0|]. injection H0 as ->.
    unfold vec_remove0. destruct l2 as [|s1 l2]; [discriminate|]. cbn [nth_res nth_error].
    intros H. injection H as <- <-. cbn [spare freed sec_ssk sec_time] in *.
    assert (Hnew : exists new va r w ks, s1 :: l2 = new ++ post /\ s0 = honest_ssk pp x ta va r /\ node_at (pp_depth pp) ta va
      /\ new = honest_ssk pp x tar (va ++ w) r :: ks /\ w <> [] /\ node_at (pp_depth pp) tar (va ++ w)).
    { destruct (update_good L m pp x sk tar seed Hpp Hg Htar) as (pre' & ta' & va' & r' & post' & [Hl' Hn' Hc' Hpre' _ Hpost'] & Hcase).
      assert (Hsame : post' = post /\ ta' = ta /\ honest_ssk pp x ta' va' r' = s0).
      {
        rewrite Hl in Hl'. clear - Hl' Hpost Hpost' Hc Hc' Hs0.
        assert (H : forall (p p' : list (subkey E)) a a' q q', p ++ a :: q = p' ++ a' :: q' -> sk_t a <= tar -> sk_t a' <= tar ->
          Forall (fun s => tar < sk_t s) q -> Forall (fun s => tar < sk_t s) q' -> q' = q /\ a' = a).
        { induction p as [|b p IH]; intros p' a a' q q' He Ha Ha' Hq Hq'; destruct p' as [|b' p']; cbn [app] in He.
          - injection He as -> ->. auto.
          - injection He as <- ->. exfalso. rewrite Forall_app in Hq. destruct Hq as [_ Hq]. apply Forall_inv in Hq. lia.
          - injection He as <- <-. exfalso. rewrite Forall_app in Hq'. destruct Hq' as [_ Hq']. apply Forall_inv in Hq'. lia.
          - injection He as -> He. eapply IH; eassumption. }
        destruct (H _ _ _ _ _ _ Hl') as [-> Ha]; try assumption.
        - rewrite Hs0. lia.
        - cbn [honest_ssk sk_t]. lia.
        - split; [reflexivity|]. split; [rewrite <- Hs0, <- Ha; reflexivity|exact Ha]. }
      destruct Hsame as (-> & -> & Hsame). rewrite Hup in Hcase.
      destruct Hcase as [[He _]|[_ (tv' & gpre & gpost & _ & _ & [gp' ->] & _ & _ & Hnodes & Hcase)]]; [congruence|].
      destruct (spec_fresh _ _ _ _ _ _ _) as [[ks g2]|] eqn:Hf; [|congruence]. injection Hcase as _ He _.
      apply spec_fresh_nonempty in Hf as [ks' ->]. apply Forall_inv in Hnodes as [Hnt (w & Hw & Hvw)].
      assert (Ht1 : tv_time tv' = tar).
      { cbn [app] in He. injection He as He _. rewrite <- Htime, He. reflexivity. }
      rewrite Hvw, Ht1 in Hnt. rewrite Hvw, Ht1 in He.
      exists (honest_ssk pp x tar (va' ++ w) r' :: ks'), va', r', w, ks'. split; [exact He|]. split; [symmetry; exact Hsame|].
      split; [exact Hn'|]. split; [reflexivity|]. split; [exact Hw|exact Hnt]. }
    destruct Hnew as (new & va' & r' & w & ks & Hnew & Hs0' & Hn' & Hnw & Hwn & Hnt).
    assert (Hnn : new <> []) by (rewrite Hnw; discriminate).
    exists pre, s0, post, new, mv. split; [reflexivity|]. split; [exact Hnew|]. split; [exact Htime|].
    assert (Hlt : sk_t s0 < tar) by (rewrite Hs0 in Hne |- *; lia).
    split; [right; split; [exact Hlt|exact Hnn]|]. split; [rewrite Hfr; reflexivity|].
    assert (Hlast : In (last (s0 :: s1 :: l2) s0) (s1 :: l2)).
    { rewrite (last_app_cons [s0] s1 l2 s0 : last (s0 :: s1 :: l2) s0 = _). apply last_in. }
    rewrite repeat_length in *. cbn [length] in Hiff, Hsp, Hlen. rewrite app_length. cbn [length].
    replace (S (length post) + length pre)%nat with (length pre + S (length post))%nat in Hiff by lia.
    assert (Hmem : forall b hd, In b ((Some (head_of (last (s0 :: s1 :: l2) s0)) :: spare h2) :: mv) -> In (Some hd) b ->
      (exists s, In s (s1 :: l2) /\ hd = head_of s)
      \/ hd = head_of s0 /\ (mv <> [] \/ post = [] /\ (S (length l2) + 1 < length pre + 1)%nat)).
    { intros b hd [<-|Hb] Hin.
      - destruct Hin as [Hin|Hin]; [injection Hin as <-; left; eauto|].
        destruct Hsp as [[Hle Hsp]|[_ Hsp]].
        2:{ rewrite Forall_forall in Hsp. specialize (Hsp _ Hin). discriminate Hsp. }
        rewrite Hsp in Hin.
        assert (Hk : (S (S (length l2)) - S (length post) < length pre)%nat).
        { destruct (Nat.ltb_spec (S (S (length l2)) - S (length post)) (length pre)) as [Hk|Hk]; [exact Hk|exfalso].
          rewrite skipn_all2 in Hin by (rewrite repeat_length; lia). exact Hin. }
        assert (Hin' : In (Some hd) (repeat (Some (head_of (last (s0 :: post) s0))) (length pre))).
        { rewrite <- (firstn_skipn (S (S (length l2)) - S (length post)) (repeat _ _)). apply in_or_app. right. exact Hin. }
        apply repeat_spec in Hin'. injection Hin' as ->.
        destruct post as [|q post].
        + right. split; [reflexivity|]. right. split; [reflexivity|]. cbn [length] in Hk. lia.
        + left. exists (last (s0 :: q :: post) s0). split; [|reflexivity].
          rewrite (last_app_cons [s0] q post s0 : last (s0 :: q :: post) s0 = _). rewrite Hnew. apply in_or_app. right. apply last_in.
      - rewrite Forall_forall in Hmv. destruct (Hmv _ Hb) as (v & -> & _ & Hv). unfold as_slots in Hin.
        apply in_map_iff in Hin as (s & Hs & Hin). injection Hs as <-. destruct (Hv _ Hin) as [<-|Hs].
        + right. split; [reflexivity|]. left. intros ->. exact Hb.
        + left. eauto. }
    split; [|split; [split|]].
    + intros b hd Hb Hin. destruct (Hmem b hd Hb Hin) as [H|[H _]]; auto.
    + intros (b & hd & Hb & Hin & Hpast). split; [exact Hlt|].
      destruct (Hmem b hd Hb Hin) as [(s & Hs & ->)|[_ Hw]].
      { specialize (Hcur _ Hs). cbn [head_of hd_t] in Hpast. lia. }
      destruct Hw as [Hw|[-> Hw]].
      * left. apply Hiff in Hw as (k & Hk & Hm). exists k. split; [lia|exact Hm].
      * right. split; [reflexivity|]. cbn [length]. lia.
    + intros [_ [(k & Hk & Hm)|[-> Hk]]].
      * assert (Hne' : mv <> []) by (apply Hiff; exists k; split; [lia|exact Hm]).
        destruct mv as [|b mv]; [contradiction Hne'; reflexivity|].
        apply Forall_inv in Hmv as (v & -> & Hv & _). exists (as_slots v), (head_of s0).
        split; [right; left; reflexivity|]. split; [apply in_map_iff; eauto|exact Hlt].
      * cbn [length] in Hk, Hsp. destruct Hsp as [[Hle Hsp]|[Hle _]]; [|lia].
        exists (Some (head_of (last (s0 :: s1 :: l2) s0)) :: spare h2), (head_of s0). split; [left; reflexivity|].
        split; [|exact Hlt]. right. rewrite Hsp. cbn [last].
        replace (length pre) with ((S (S (length l2)) - 1) + S (length pre - S (S (length l2))))%nat by lia.
        rewrite repeat_app, skipn_app, skipn_all2 by (rewrite repeat_length; lia).
        rewrite repeat_length, Nat.sub_diag. left. reflexivity.
    + split; [apply Htar|]. split; [exact Hcur|]. exists va', r'. rewrite Hs0. split; [exact Hs0'|]. split; [exact Hn'|]. intros _. exists w, ks. auto.
Qed.

Lemma update_v_leaves : forall (E : env) (L : env_laws E) (P : policy) m m' (pp : pubparam E) pk tar seed sk sk' h h',
  pp_ok pp -> reachable m pp pk sk -> update_v P m' pp tar seed (sk, h) = (Ok tt, (sk', h')) ->
  exists pre s0 post new mv,
    sec_ssk sk = pre ++ s0 :: post /\ sec_ssk sk' = new ++ post /\ sec_time sk' = tar
    /\ (sk_t s0 = tar /\ new = [s0] \/ sk_t s0 < tar /\ new <> [])
    /\ freed h' = give_up P (spare h) (mv ++ freed h)
    /\ (forall b hd, In b (spare h' :: mv) -> In (Some hd) b ->
          hd = head_of s0 \/ exists s, In s (sec_ssk sk') /\ hd = head_of s)
    /\ (holds_past tar (spare h' :: mv) <->
        sk_t s0 < tar
        /\ ((exists k, (caps P (length (sec_ssk sk)) k <= length (sec_ssk sk'))%nat
                       /\ moved P (caps P (length (sec_ssk sk)) k) = true)
            \/ (post = [] /\ (length (sec_ssk sk') + 1 < length (sec_ssk sk))%nat))).
Proof.
  intros E L P m m' pp pk tar seed sk sk' h h' Hpp Hr Hu.
  destruct (reachable_good L m pp pk sk Hpp Hr) as (x & _ & _ & Hg & _).
  destruct (update_v_split L P m' pp x tar seed sk sk' h h' Hpp Hg Hu) as (pre & s0 & post & new & mv & H1 & H2 & H3 & H4 & H5 & H6 & H7 & _).
  exists pre, s0, post, new, mv. auto 10.
Qed.

Lemma first_update_leaves_root : forall (E : env) (L : env_laws E) (P : policy) m m' (pp : pubparam E) pk tar seed sk sk' s h h',
  pp_ok pp -> reachable m pp pk sk -> sec_ssk sk = [s] -> moved P 1 = true ->
  update_v P m' pp tar seed (sk, h) = (Ok tt, (sk', h')) ->
  sk_t s < sec_time sk' /\ exists b, In b (spare h' :: freed h') /\ In (Some (head_of s)) b.
Proof.
  intros E L P m m' pp pk tar seed sk sk' s h h' Hpp Hr Hs Hm Hu.
  destruct (reachable_good L m pp pk sk Hpp Hr) as (x & _ & _ & Hg & _).
  destruct (update_v_split L P m' pp x tar seed sk sk' h h' Hpp Hg Hu)
    as (pre & s0 & post & new & mv & H1 & H2 & H3 & H4 & H5 & H6 & H7 & H8 & H9 & _).
  assert (Hs0 : pre = [] /\ s0 = s /\ post = []).
  { rewrite Hs in H1. destruct pre as [|q pre]; [injection H1 as -> <-; auto|]. destruct pre; discriminate H1. }
  destruct Hs0 as (-> & -> & ->).
  pose proof (tiling_inv _ _ _ _ (eq_ind _ (fun l => tiling (pp_depth pp) (sec_time sk) (map sk_t l)) (gsk_til _ _ _ Hg) _ Hs)) as [Ht _].
  assert (Hlt : sk_t s < tar) by lia.
  rewrite H3. split; [exact Hlt|].
  assert (Hp : holds_past tar (spare h' :: mv)).
  { apply H7. split; [exact Hlt|]. left. exists 0%nat. rewrite Hs. split; [|exact Hm].
    rewrite H2, app_length. destruct H4 as [[H4 _]|[_ H4]]; [lia|]. destruct new; [contradiction H4; reflexivity|].
    change (1 <= S (length new) + 0)%nat. lia. }
  destruct Hp as (b & hd & Hb & Hin & Hpast). exists b. split.
  - rewrite H5. unfold give_up. destruct Hb as [<-|Hb]; [left; reflexivity|right].
    destruct (clears P); [|right]; apply in_or_app; left; exact Hb.
  - destruct (H6 b hd Hb Hin) as [->|(s' & Hs' & ->)]; [exact Hin|exfalso].
    specialize (H9 _ Hs'). cbn [head_of hd_t] in Hpast. lia.
Qed.

(** * What the leftovers are good for *)
Lemma fresh_memory {E} P (mv : list (slots E)) b hd sp : In b (sp :: give_up P [] (mv ++ [])) -> In (Some hd) b -> In b (sp :: mv).
Proof.
  rewrite app_nil_r. intros [<-|Hb] Hin; [left; reflexivity|right]. unfold give_up in Hb.
  destruct (clears P); [exact Hb|]. destruct Hb as [<-|Hb]; [destruct Hin|exact Hb].
Qed.
Lemma last_nth {A} (d : A) l : last l d = nth (length l - 1) l d.
Proof.
  induction l as [|a l IH]; [reflexivity|]. destruct l as [|b l]; [reflexivity|].
  change (last (b :: l) d = nth (length (a :: b :: l) - 1) (a :: b :: l) d). rewrite IH. cbn [length].
  replace (S (S (length l)) - 1)%nat with (S (S (length l) - 1)) by lia. reflexivity.
Qed.

Lemma past_slot_signs : forall (E : env) (L : env_laws E) (P : policy) m m' (pp : pubparam E) pk tar seed sk sk' h' b hd,
  pp_ok pp -> reachable m pp pk sk -> update_v P m' pp tar seed (sk, Heap [] []) = (Ok tt, (sk', h')) ->
  In b (spare h' :: freed h') -> In (Some hd) b -> hd_t hd < tar ->
  forall m'' msg, verify m'' (forge_from pp hd sk' msg) pk pp msg = Ok true.
Proof.
  intros E L P m m' pp pk tar seed sk sk' h' b hd Hpp Hr Hu Hb Hin Hpast m'' msg.
  destruct (reachable_good L m pp pk sk Hpp Hr) as (x & _ & -> & Hg & Hcs).
  destruct (update_v_split L P m' pp x tar seed sk sk' _ h' Hpp Hg Hu)
    as (pre & s0 & post & new & mv & H1 & H2 & H3 & H4 & H5 & H6 & H7 & H8 & H9 & va & r & Hs0 & Hn & Hw).
  cbn [spare freed] in H5. rewrite H5 in Hb. apply (fresh_memory _ _ _ _ _ Hb) in Hin as Hb'.
  destruct (H6 b hd Hb' Hin) as [->|(s' & Hs' & ->)].
  2:{ exfalso. specialize (H9 _ Hs'). cbn [head_of hd_t] in Hpast. lia. }
  destruct (Hw Hpast) as (w & ks & -> & Hwn & Hnt).
  assert (Hs : forge_from pp (head_of s0) sk' msg = honest_sig pp x (sk_t s0) va (msg_scalar pp msg) r).
  { unfold forge_from. rewrite H2. cbn [app]. unfold honest_sig.
    pose proof (last_hv pp x tar (va ++ w) r Hpp (proj2 (node_at_turn _ _ _ Hnt))) as Hlast.
    assert (Hl : last (sk_hvec (honest_ssk pp x tar (va ++ w) r)) g1_zero = g1_mul r (nth (pp_depth pp) (pp_hlist pp) g1_zero)).
    { unfold last_hvector_coeff in Hlast. destruct (sk_hvec (honest_ssk pp x tar (va ++ w) r)) as [|a l]; [discriminate Hlast|].
      rewrite last_nth. unfold nth_res in Hlast. destruct (nth_error (a :: l) (length (a :: l) - 1)) as [y|] eqn:Hy; [|discriminate Hlast].
      injection Hlast as ->. apply nth_error_nth, Hy. }
    rewrite Hl. rewrite Hs0 at 2 3. cbn [head_of hd_t hd_g2r hd_hpoly honest_ssk sk_g2r sk_hpoly]. f_equal.
    unfold sig_val. g1_solve L. }
  rewrite Hs. apply (verify_honest L); assumption.
Qed.

Lemma half_mul {E} (L : env_laws E) (y : G1 E) : g1_insub y = true -> g1_mul half (g1_mul 2 y) = y.
Proof.
  intros Hy. rewrite <- (l1_mul_mul E L). replace (half * 2) with (fr_modulus + 1) by reflexivity.
  rewrite (l1_mul_add E L), (l1_order E L) by exact Hy. g1_solve L.
Qed.

Lemma past_slot_recovers : forall (E : env) (L : env_laws E) (P : policy) m m' (pp : pubparam E) pk tar seed sk sk' h' b hd v c,
  pp_ok pp -> reachable m pp pk sk -> update_v P m' pp tar seed (sk, Heap [] []) = (Ok tt, (sk', h')) ->
  In b (spare h' :: freed h') -> In (Some hd) b -> hd_t hd < tar ->
  node_at (pp_depth pp) (hd_t hd) v -> node_at (pp_depth pp) tar (v ++ [c]) ->
  In (recover_from c hd sk') (sec_ssk sk).
Proof.
  intros E L P m m' pp pk tar seed sk sk' h' b hd v c Hpp Hr Hu Hb Hin Hpast Hv Hvc.
  destruct (reachable_good L m pp pk sk Hpp Hr) as (x & _ & _ & Hg & Hcs).
  destruct (update_v_split L P m' pp x tar seed sk sk' _ h' Hpp Hg Hu)
    as (pre & s0 & post & new & mv & H1 & H2 & H3 & H4 & H5 & H6 & H7 & H8 & H9 & va & r & Hs0 & Hn & Hw).
  cbn [spare freed] in H5. rewrite H5 in Hb. apply (fresh_memory _ _ _ _ _ Hb) in Hin as Hb'.
  destruct (H6 b hd Hb' Hin) as [->|(s' & Hs' & ->)].
  2:{ exfalso. specialize (H9 _ Hs'). cbn [head_of hd_t] in Hpast. lia. }
  destruct (Hw Hpast) as (w & ks & -> & Hwn & Hnt).
  cbn [head_of hd_t] in Hv. rewrite (node_at_fun _ _ _ _ Hv Hn) in Hvc. rewrite (node_at_fun _ _ _ _ Hnt Hvc) in H2. clear H4 Hw Hwn. clear Hv v Hnt w.
  assert (Hs : recover_from c (head_of s0) sk' = s0).
  2:{ rewrite Hs, H1. apply in_or_app. right. left. reflexivity. }
  pose proof (ppo_len pp Hpp) as Hlen. destruct (node_at_turn _ _ _ Hvc) as [Hval Hl]. rewrite app_length in Hl. cbn [length] in Hl.
  assert (Hc : c = 1 \/ c = 2).
  { apply Forall_app in Hval as [_ Hval]. apply Forall_inv in Hval. exact Hval. }
  unfold recover_from. rewrite H2. cbn [app]. rewrite Hs0. generalize (sk_t s0). intros t0.
  unfold honest_ssk. cbn [head_of hd_t hd_g2r hd_hpoly sk_t sk_g2r sk_hpoly sk_hvec].
  set (hj := nth (length va + 1) (pp_hlist pp) g1_zero).
  assert (Hhj : g1_insub hj = true) by (apply (Forall_nth_insub L), Hpp).
  assert (Hnv : node_val pp (va ++ [c]) = g1_add (node_val pp va) (g1_mul c hj)).
  { rewrite (node_val_app L) by (auto; lia). f_equal.
    rewrite (skipn_nth (pp_hlist pp) (length va + 1) g1_zero) by lia. cbn [lincomb]. fold hj. g1_solve L. }
  f_equal. fold (hv_seg pp (length va)). rewrite (hv_seg_S pp (length va)) by (auto; lia). cbn [map].
  rewrite app_length. cbn [length]. fold (hv_seg pp (length va + 1)). fold hj. f_equal. rewrite Hnv.
  rewrite (minus_eq L _ (g1_mul c (g1_mul r hj))).
  - destruct Hc as [-> | ->]; cbn [N.eqb Pos.eqb]; [g1_solve L|]. apply (half_mul L), (g1_mul_insub L), Hhj.
  - apply (l1_sub_add E L); [apply (g1_mul_insub L), Hpp|apply (g1_mul_insub L), (node_val_insub L), Hpp].
  - g1_solve L.
Qed.

(** * Freed blocks stay as they are *)
Lemma drop_until_v_freed {E} dt b : forall (l : list (subkey E)) h, In b (freed h) -> In b (freed (snd (drop_until_v dt l h))).
Proof.
  induction l as [|s l IH]; intros h Hb; cbn [drop_until_v]; [exact Hb|].
  destruct (sk_t s =? dt); [exact Hb|]. unfold sbind, vec_remove0. apply IH. exact Hb.
Qed.
Lemma vec_insert_freed {E} P i x (l : list (subkey E)) h b : In b (freed h) -> In b (freed (snd (vec_insert P i x l h))).
Proof.
  intros Hb. unfold vec_insert. destruct (insert_at i x l); [|exact Hb|exact Hb]. destruct (spare h); [|exact Hb].
  cbn [snd freed]. destruct (moved P (length l)); [right|]; exact Hb.
Qed.
Lemma update_loop_v_freed {E} P m (pp : pubparam E) old b : forall gl i l g h,
  In b (freed h) -> In b (freed (snd (update_loop_v P m pp old i gl l g h))).
Proof.
  induction gl as [|tv gl IH]; intros i l g h Hb; cbn [update_loop_v]; [exact Hb|].
  unfold sbind, slift. destruct (dup_loop m (pp_depth pp) tv (skipn (i + 1) l)) as [[]| |]; try exact Hb.
  destruct (nth_res l 0) as [s0| |]; try exact Hb. destruct (run_mut _ s0) as [s1| |]; try exact Hb.
  destruct (rerand_new m pp old i s1 g) as [[s2 g']| |]; try exact Hb.
  pose proof (vec_insert_freed P (i + 1) s2 l h b Hb) as Hi. destruct (vec_insert P (i + 1) s2 l h) as [[l'| |] h']; try exact Hi.
  apply IH, Hi.
Qed.
Lemma new_key_v_freed {E} P m (pp : pubparam E) tar seed sk dt h b :
  In b (freed h) -> In b (freed (snd (new_key_v P m pp tar seed sk dt h))).
Proof.
  intros Hb. unfold new_key_v, sbind, slift, sret. destruct (rerandomize _ _ _ _) as [g| |]; try exact Hb.
  pose proof (drop_until_v_freed dt b (sec_ssk sk) h Hb) as Hd. destruct (drop_until_v dt (sec_ssk sk) h) as [[l| |] h1]; try exact Hd.
  destruct l as [|s l]; [exact Hd|]. destruct (dt =? tar); [exact Hd|].
  destruct (tv_init m tar (pp_depth pp)) as [tv| |]; try exact Hd. destruct (gamma_list m tv (pp_depth pp)) as [gl| |]; try exact Hd.
  pose proof (update_loop_v_freed P m pp (sec_prng sk) b gl 0 (s :: l) g h1 Hd) as Hl.
  destruct (update_loop_v P m pp (sec_prng sk) 0 gl (s :: l) g h1) as [[[l' g']| |] h2]; try exact Hl.
  unfold vec_remove0. destruct l' as [|a l']; [exact Hl|]. destruct (nth_res l' 0); exact Hl.
Qed.

Lemma update_v_freed {E} P m (pp : pubparam E) tar seed sk h b :
  In b (freed h) -> In b (freed (snd (snd (update_v P m pp tar seed (sk, h))))).
Proof.
  intros Hb. unfold update_v. destruct (negb _); [exact Hb|]. destruct (bind _ _); try exact Hb. destruct (_ || _); [exact Hb|].
  destruct (find_ancestor sk tar) as [dt| |]; try exact Hb.
  pose proof (new_key_v_freed P m pp tar seed sk dt (Heap [] (freed h)) b Hb) as Hn.
  destruct (new_key_v P m pp tar seed sk dt (Heap [] (freed h))) as [[k|e|p] h1]; cbn [snd freed] in *; unfold give_up;
    (destruct (clears P); [|right]; exact Hn).
Qed.

Lemma freed_stays : forall (E : env) (P : policy) m (pp : pubparam E) (l : list (N * bytes)) sk h b,
  In b (freed h) -> In b (freed (snd (updates_v P m pp l (sk, h)))).
Proof.
  intros E P m pp l. unfold updates_v. induction l as [|[t seed] l IH]; intros sk h b Hb; cbn [fold_left]; [exact Hb|].
  pose proof (update_v_freed P m pp t seed sk h b Hb) as Hu. cbn [fst snd].
  destruct (update_v P m pp t seed (sk, h)) as [r [sk' h']]. apply IH, Hu.
Qed.
