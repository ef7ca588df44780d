(** Lemmas behind Properties_Fwd.v. *)
From Coq Require Import ZArith Sorting.Sorted ZifyBool ZifyN ZifyNat.
From Verif Require Import Base Env NMod GroupFacts SpecTime Time TimeFacts Hkdf Prng SpecPrng PrngFacts SubKey SecretKey Keys Sig SpecKey SpecUpdate
  SubKeyFacts UpdateFacts KeyFacts HistoryFacts SpecAgg
  SpecRed SpecMulti SpecRom SpecPop SpecFwd KeyProps VerProps AggProps LinProps RedProps RandProps MultiProps RomProps PopProps PopCountProps.
Local Open Scope N_scope.
Local Arguments N.add : simpl never.
Local Arguments N.mul : simpl never.
Local Arguments N.sub : simpl never.
Local Arguments N.modulo : simpl never.
Local Arguments pow2 : simpl never.

Lemma some_pair {A B} (a a' : A) (b b' : B) : Some (a, b) = Some (a', b') -> a' = a /\ b' = b.
Proof. intros H. inversion H. auto. Qed.
Lemma some_inj {A} (a a' : A) : Some a = Some a' -> a' = a.
Proof. intros H. inversion H. reflexivity. Qed.

(** * The sub keys at a time, and an update *)
Lemma cover_tiling d t : (d < 64)%nat -> 1 <= t <= last_time d -> tiling d t (cover d t).
Proof.
  intros Hd Ht. unfold cover. destruct (tv_init_ex Debug d t Hd Ht) as (v & Hn & ->).
  destruct (gamma_list_spec Debug d t v Hd Hn) as (l & -> & _ & Htil & _). rewrite map_map. exact Htil.
Qed.
Lemma split_times t : forall (l : list (N * N)) b, StronglySorted N.lt (map fst (b :: l)) -> fst b <= t ->
  exists pre ta r post, b :: l = pre ++ (ta, r) :: post /\ Forall (fun p => fst p < ta) pre /\ ta <= t /\ Forall (fun p => t < fst p) post.
Proof.
  induction l as [|c l IH]; intros b Hs Hb.
  - exists [], (fst b), (snd b), []. destruct b. repeat split; auto.
  - destruct (N.leb_spec (fst c) t) as [Hc|Hc].
    + cbn [map] in Hs. inversion Hs as [|? ? Hs' Hf]; subst. destruct (IH c Hs' Hc) as (pre & ta & r & post & He & Hp & Ht & Hq).
      exists (b :: pre), ta, r, post. rewrite He. split; [reflexivity|]. split; [|auto]. constructor; [|exact Hp].
      change (fst c :: map fst l) with (map fst (c :: l)) in Hf. rewrite He, map_app, Forall_app in Hf. destruct Hf as [_ Hf]. inversion Hf; assumption.
    + exists [], (fst b), (snd b), (c :: l). destruct b. cbn [fst snd]. split; [reflexivity|]. split; [constructor|]. split; [exact Hb|].
      cbn [map] in Hs. inversion Hs as [|? ? Hs' _]; subst. inversion Hs' as [|? ? _ Hf]; subst. constructor; [exact Hc|].
      rewrite Forall_map in Hf. eapply Forall_impl; [|exact Hf]. cbv beta. intros a Ha. cbn [fst] in Hc. lia.
Qed.
Lemma filter_all {A} (f : A -> bool) l : Forall (fun a => f a = true) l -> filter f l = l.
Proof. induction 1 as [|a l Ha _ IH]; [reflexivity|]. cbn [filter]. rewrite Ha, IH. reflexivity. Qed.
Lemma filter_none {A} (f : A -> bool) l : Forall (fun a => f a = false) l -> filter f l = [].
Proof. induction 1 as [|a l Ha _ IH]; [reflexivity|]. cbn [filter]. rewrite Ha, IH. reflexivity. Qed.

(** The parts of the list of sub keys in an update to [t]; [fr]: the further new ones. *)
Record parts (d : nat) (rho : list (N * N)) (from t : N) (pre : list (N * N)) (ta r : N) (post : list (N * N)) (fr : list N) : Prop := Parts {
  pa_rho : rho = pre ++ (ta, r) :: post;
  pa_ta : ta <= t;
  pa_pre : Forall (fun p => fst p < ta) pre;
  pa_post : Forall (fun p => t < fst p) post;
  pa_cover : cover d t = t :: fr ++ map fst post;
  pa_made : (ta = t /\ fr = [] /\ made d from t = []) \/ (ta < t /\ made d from t = t :: fr) }.

Lemma parts_exist {E} (pp : pubparam E) d rho from t : pp_ok pp -> pp_depth pp = d -> map fst rho = cover d from -> 1 <= from -> from < t <= last_time d ->
  exists pre ta r post fr, parts d rho from t pre ta r post fr.
Proof.
  intros Hpp Hdd Hm Hf Ht. pose proof (ppo_depth pp Hpp) as Hd. rewrite Hdd in Hd. pose proof (cover_tiling d from ltac:(lia) ltac:(lia)) as Htil.
  destruct rho as [|b rho]. { rewrite <- Hm in Htil. apply tiling_nil_inv in Htil. unfold last_time in *. lia. }
  pose proof (tiling_sorted _ _ _ Htil) as Hs. rewrite <- Hm in Hs, Htil.
  assert (Hb : fst b <= t). { cbn [map] in Htil. apply tiling_inv in Htil as [H _]. lia. }
  destruct (split_times t rho b Hs Hb) as (pre & ta & r & post & He & Hp & Hta & Hq). rewrite He in *. clear b Hs Hb He.
  assert (Hlt : Forall (fun p => fst p < t) pre). { eapply Forall_impl; [|exact Hp]. cbv beta. intros; lia. }
  assert (Hk : filter (fun s => t <=? s) (cover d from) = (if t <=? ta then [ta] else []) ++ map fst post).
  { rewrite <- Hm, map_app, filter_app. cbn [map fst filter]. rewrite filter_none, filter_all.
    - destruct (t <=? ta); reflexivity.
    - apply Forall_map. eapply Forall_impl; [|exact Hq]. cbv beta. intros; lia.
    - apply Forall_map. eapply Forall_impl; [|exact Hlt]. cbv beta. intros; lia. }
  rewrite map_app in Htil. cbn [map fst] in Htil. pose proof (tiling_suffix _ _ _ _ _ Htil) as Hta'.
  apply tiling_inv in Hta' as H0. destruct H0 as (_ & va & Hn & Hpost).
  destruct (N.eq_dec ta t) as [->|Hne].
  - assert (Hc : cover d t = t :: map fst post) by (apply (tiling_fun d t); [apply cover_tiling; lia|exact Hta']).
    exists pre, t, r, post, []. constructor; auto; [].
    left. split; [reflexivity|]. split; [reflexivity|]. unfold made. rewrite Hk, Hc. replace (t <=? t) with true by lia. cbn [app length]. rewrite Nat.sub_diag. reflexivity.
  - destruct (tv_init_ex Debug d t ltac:(lia) ltac:(lia)) as (v & Hv & Htv).
    assert (Hint : ta <= t < ta + (pow2 (d - length va) - 1)).
    { apply (tiling_interval d ta (map fst post) va t Hta' Hn); [lia|]. apply Forall_map. exact Hq. }
    pose proof (gamma_split Debug pp ta va t (TimeVec t v) (map (fun p => SubKey (fst p) g2_zero g1_zero []) post) Hpp) as Hgs.
    rewrite map_map, Hdd in Hgs. cbn [sk_t] in Hgs.
    destruct (Hgs Hn ltac:(lia) Hpost Htv) as (gpre & gpost & _ & (gpre' & ->) & Htl & _).
    assert (Hc : cover d t = t :: map tv_time gpre' ++ map fst post) by (apply (tiling_fun d t); [apply cover_tiling; lia|exact Htl]).
    exists pre, ta, r, post, (map tv_time gpre'). constructor; auto; [].
    right. split; [lia|]. unfold made. rewrite Hk, Hc. replace (t <=? ta) with false by lia. cbn [app length]. rewrite app_length.
    replace (S (length (map tv_time gpre') + length (map fst post)) - length (map fst post))%nat with (S (length (map tv_time gpre'))) by lia.
    cbn [firstn]. rewrite firstn_app_len by reflexivity. reflexivity.
Qed.

Lemma s_update_form {E} (pp : pubparam E) w t seed w' cl pre ta r post fr : parts (pp_depth pp) (w_rho w) (w_time w) t pre ta r post fr ->
  s_update pp w t seed = Some (w', cl) ->
  exists k2 g0 ks u1 v u2 u3 us l g' A' ks' us' cl',
    w_ks w = k2 :: g0 :: ks /\ w_us w = u1 :: v :: u2 :: u3 :: us
    /\ draw_keys r fr g0 (w_A w) ks us = Some (l, g', A', ks', us', cl')
    /\ w' = World t ((t, r) :: l ++ post) g' [] A' (w_B w) ks' us' (map snd pre ++ w_trash w) (w_tbl w) (w_ptbl w) []
    /\ cl = calls (w_g w) ((DOM_SEP_SK_RERANDOMIZE_INFO ++ time_bytes (w_time w)) ++ [1]) u1 v
            ++ calls (w_g w) (v ++ (DOM_SEP_SK_RERANDOMIZE_INFO ++ time_bytes (w_time w)) ++ [2]) u2 k2 ++ calls k2 (v ++ seed) u3 g0 ++ cl'.
Proof.
  intros [Hrho Hta Hpre Hpost Hc Hmade] H. unfold s_update in H.
  assert (Hold : filter (fun p => fst p <=? t) (w_rho w) = pre ++ [(ta, r)]).
  { rewrite Hrho, filter_app. cbn [filter fst]. replace (ta <=? t) with true by lia. rewrite filter_all, filter_none; [reflexivity| |].
    - eapply Forall_impl; [|exact Hpost]. cbv beta. intros; lia.
    - eapply Forall_impl; [|exact Hpre]. cbv beta. intros; lia. }
  assert (Hkeep : filter (fun p => t <=? fst p) (w_rho w) = (if t <=? ta then [(ta, r)] else []) ++ post).
  { rewrite Hrho, filter_app. cbn [filter fst]. rewrite filter_none, filter_all.
    - destruct (t <=? ta); reflexivity.
    - eapply Forall_impl; [|exact Hpost]. cbv beta. intros; lia.
    - eapply Forall_impl; [|exact Hpre]. cbv beta. intros; lia. }
  rewrite Hold, Hkeep, last_last, removelast_last in H. cbn [snd] in H.
  destruct (w_ks w) as [|k2 [|g0 ks]]; try discriminate H. destruct (w_us w) as [|u1 [|v [|u2 [|u3 us]]]]; try discriminate H.
  destruct Hmade as [(-> & -> & Hm)|(Hlt & Hm)]; rewrite Hm in H.
  - replace (t <=? t) with true in H by lia. apply some_pair in H as [-> ->].
    exists k2, g0, ks, u1, v, u2, u3, us, [], g0, (w_A w), ks, us, []. cbn [draw_keys app]. rewrite app_nil_r. auto.
  - replace (t <=? ta) with false in H by lia.
    destruct (draw_keys r fr g0 (w_A w) ks us) as [[[[[[l g'] A'] ks'] us'] cl']|] eqn:Hdr; [|discriminate H]. apply some_pair in H as [-> ->].
    exists k2, g0, ks, u1, v, u2, u3, us, l, g', A', ks', us', cl'. cbn [app]. split; [reflexivity|]. split; [reflexivity|]. split; [exact Hdr|]. split; [reflexivity|]. rewrite <- !app_assoc. reflexivity.
Qed.

Lemma draw_keys_times r : forall fr g A ks us l g' A' ks' us' cl, draw_keys r fr g A ks us = Some (l, g', A', ks', us', cl) -> map fst l = fr.
Proof.
  induction fr as [|t fr IH]; intros g A ks us l g' A' ks' us' cl H; cbn [draw_keys] in H; [injection H as <- _ _ _ _ _; reflexivity|].
  destruct A as [|b A], ks as [|g1 ks], us as [|u1 [|u2 us]]; try discriminate H.
  destruct (draw_keys r fr g1 A ks us) as [[[[[[l0 g0] A0] ks0] us0] cl0]|] eqn:Hd; [|discriminate H]. injection H as <- _ _ _ _ _. cbn [map fst]. rewrite (IH _ _ _ _ _ _ _ _ _ _ Hd). reflexivity.
Qed.
Lemma draw_keys_small r : forall fr g A ks us l g' A' ks' us' cl, draw_keys r fr g A ks us = Some (l, g', A', ks', us', cl) -> Forall (fun p => snd p < fr_modulus) l.
Proof.
  induction fr as [|t fr IH]; intros g A ks us l g' A' ks' us' cl H; cbn [draw_keys] in H; [injection H as <- _ _ _ _ _; constructor|].
  destruct A as [|b A], ks as [|g1 ks], us as [|u1 [|u2 us]]; try discriminate H.
  destruct (draw_keys r fr g1 A ks us) as [[[[[[l0 g0] A0] ks0] us0] cl0]|] eqn:Hd; [|discriminate H]. injection H as <- _ _ _ _ _.
  constructor; [apply mod_small|exact (IH _ _ _ _ _ _ _ _ _ _ Hd)].
Qed.
(** The other streams move independently of the scalars. *)
Lemma draw_keys_streams r : forall fr g A ks us l g' A' ks' us' cl, draw_keys r fr g A ks us = Some (l, g', A', ks', us', cl) ->
  g' = nth (length fr) (g :: ks) [] /\ ks' = skipn (length fr) ks /\ us' = skipn (2 * length fr) us /\ A' = skipn (length fr) A
  /\ (length fr <= length A)%nat /\ (length fr <= length ks)%nat.
Proof.
  induction fr as [|t fr IH]; intros g A ks us l g' A' ks' us' cl H; cbn [draw_keys] in H; [injection H as <- <- <- <- <- _; cbn; repeat split; lia|].
  destruct A as [|b A], ks as [|g1 ks], us as [|u1 [|u2 us]]; try discriminate H.
  destruct (draw_keys r fr g1 A ks us) as [[[[[[l0 g0] A0] ks0] us0] cl0]|] eqn:Hd; [|discriminate H]. injection H as _ <- <- <- <- _.
  destruct (IH _ _ _ _ _ _ _ _ _ _ Hd) as (-> & -> & -> & -> & H1 & H2). cbn [length nth skipn].
  replace (2 * S (length fr))%nat with (S (S (2 * length fr))) by lia. cbn [skipn]. repeat split; lia.
Qed.
Lemma draw_keys_length r : forall fr g A ks us l g' A' ks' us' cl, draw_keys r fr g A ks us = Some (l, g', A', ks', us', cl) ->
  (length l + length A' = length A)%nat.
Proof.
  intros fr g A ks us l g' A' ks' us' cl H. pose proof (draw_keys_times _ _ _ _ _ _ _ _ _ _ _ _ H) as Ht. apply (f_equal (@length N)) in Ht. rewrite map_length in Ht.
  destruct (draw_keys_streams _ _ _ _ _ _ _ _ _ _ _ _ H) as (_ & _ & _ & -> & HA & _). rewrite skipn_length. lia.
Qed.

(** * Worlds *)
Record world_ok {E} (pp : pubparam E) (w : world E) : Prop := WorldOk {
  wo_time : 1 <= w_time w <= last_time (pp_depth pp);
  wo_rho : map fst (w_rho w) = cover (pp_depth pp) (w_time w);
  wo_small : Forall (fun p => snd p < fr_modulus) (w_rho w) }.

Lemma s_update_ok {E} (pp : pubparam E) w t seed w' cl : pp_ok pp -> world_ok pp w -> w_time w < t <= last_time (pp_depth pp) ->
  s_update pp w t seed = Some (w', cl) -> world_ok pp w' /\ w_time w' = t.
Proof.
  intros Hpp [H1 H2 H3] Ht H. destruct (parts_exist pp _ _ _ t Hpp eq_refl H2 (proj1 H1) Ht) as (pre & ta & r & post & fr & Hp).
  destruct (s_update_form pp w t seed w' cl _ _ _ _ _ Hp H) as (k2 & g0 & ks & u1 & v & u2 & u3 & us & l & g' & A' & ks' & us' & cl' & _ & _ & Hd & -> & _).
  split; [|reflexivity]. rewrite (pa_rho _ _ _ _ _ _ _ _ _ Hp) in H3. apply Forall_app in H3 as [_ H3]. inversion H3 as [|? ? Hr H4]; subst.
  constructor; cbn [w_time w_rho].
  - lia.
  - cbn [map fst]. rewrite map_app, (draw_keys_times _ _ _ _ _ _ _ _ _ _ _ _ Hd). symmetry. exact (pa_cover _ _ _ _ _ _ _ _ _ Hp).
  - constructor; [exact Hr|]. apply Forall_app. split; [exact (draw_keys_small _ _ _ _ _ _ _ _ _ _ _ _ Hd)|exact H4].
Qed.
Lemma add_some {E} ev cl rs (oo : option (outcome E)) o : add ev cl rs oo = Some o ->
  exists o', oo = Some o' /\ o = Outcome (o_msg o') (o_sig o') (o_list o') (o_tbl o') (o_ptbl o') (ev ++ o_ev o') (cl ++ o_calls o') (rs ++ o_rs o').
Proof. destruct oo as [o'|]; cbn [add]; intros H; [|discriminate H]. exists o'. split; [reflexivity|]. apply some_inj in H. exact H. Qed.

(** The tables grow. *)
Lemma enter_all_app {E} (l : list (pubkey E * proof E)) : forall tbl, exists e, enter_all tbl l = tbl ++ e.
Proof.
  induction l as [|kp l IH]; intros tbl; cbn [enter_all fold_left]; [exists []; symmetry; apply app_nil_r|].
  destruct (enter_app tbl (pop_input (fst kp))) as [e ->]. destruct (IH (tbl ++ e)) as [e' He]. exists (e ++ e'). unfold enter_all in He. rewrite He, app_assoc. reflexivity.
Qed.
Definition grows {E} (w : world E) (o : outcome E) : Prop := (exists e, o_tbl o = w_tbl w ++ e) /\ (exists e, o_ptbl o = w_ptbl w ++ e).
Lemma grow_tbl {E} (w : world E) o b : grows (set_tbl w (enter (w_tbl w) b)) o -> grows w o.
Proof. intros [[e He] Hp]. split; [|exact Hp]. cbn [set_tbl w_tbl] in He. destruct (enter_app (w_tbl w) b) as [e' He']. rewrite He', <- app_assoc in He. eauto. Qed.
Lemma grow_ptbl {E} (w : world E) o b : grows (set_ptbl w (enter (w_ptbl w) b)) o -> grows w o.
Proof. intros [Hp [e He]]. split; [exact Hp|]. cbn [set_ptbl w_ptbl] in He. destruct (enter_app (w_ptbl w) b) as [e' He']. rewrite He', <- app_assoc in He. eauto. Qed.

Section Sim.
Context {E : env} (L : env_laws E) (pp : pubparam E) (Hpp : pp_ok pp) (x tb : N) (hs : list bytes) (pts : list (G1 E)).
Notation d := (pp_depth pp).

Lemma s_end_some w msg s l o : s_end pp hs pts w msg s l = Some o ->
  (exists h, nth_error hs (position (w_tbl w) (hash_input (pp_cs pp) msg)) = Some h)
  /\ (length (enter_all (w_ptbl w) l) <= length pts)%nat
  /\ o = Outcome msg s l (enter (w_tbl w) (hash_input (pp_cs pp) msg)) (enter_all (w_ptbl w) l) [] [] [].
Proof.
  unfold s_end. destruct (nth_error _ _) as [h|] eqn:Hh; [|discriminate]. destruct (_ <=? _)%nat eqn:Hl; [|discriminate].
  intros H. apply some_inj in H. split; [eauto|]. split; [lia|exact H].
Qed.
Lemma s_end_grows w msg s l o : s_end pp hs pts w msg s l = Some o -> grows w o.
Proof.
  intros H. apply s_end_some in H as (_ & _ & ->). split; cbn [o_tbl o_ptbl]; [apply enter_app|apply enter_all_app].
Qed.
Lemma s_tail_grows : forall f w o, s_tail pp hs pts w f = Some o -> grows w o /\ o_ev o = [] /\ o_calls o = [] /\ o_rs o = [].
Proof.
  induction f as [msg s l|t k IH|t msg k IH|b k IH|msg cs k IH]; intros w o H; cbn [s_tail] in H; try discriminate H.
  - split; [exact (s_end_grows _ _ _ _ _ H)|]. apply s_end_some in H as (_ & _ & ->). auto.
  - destruct (lookup _ b) as [v|]; [exact (IH _ _ _ H)|]. destruct (nth_error _ _) as [h|]; [|discriminate H].
    destruct (IH _ _ _ H) as [Hg Ho]. split; [exact (grow_tbl _ _ _ Hg)|exact Ho].
  - cbv zeta in H. destruct (nth_error _ _) as [p|]; [|discriminate H]. destruct (IH _ _ _ H) as [Hg Ho]. split; [exact (grow_ptbl _ _ _ Hg)|exact Ho].
Qed.
Lemma s_update_tables w t seed w' cl : s_update pp w t seed = Some (w', cl) -> w_tbl w' = w_tbl w /\ w_ptbl w' = w_ptbl w /\ w_B w' = w_B w /\ w_cache w' = [] /\ w_own w' = [].
Proof.
  unfold s_update. destruct (w_ks w) as [|k2 [|g0 ks]]; [discriminate|discriminate|]. destruct (w_us w) as [|u1 [|v [|u2 [|u3 us]]]]; try discriminate.
  destruct (made d (w_time w) t) as [|t0 ts]; [intros H; apply some_pair in H as [-> _]; auto 6|].
  destruct (draw_keys _ _ _ _ _ _) as [[[[[[l g'] A'] ks'] us'] cl']|]; [|discriminate]. intros H; apply some_pair in H as [-> _]; auto 6.
Qed.
Lemma s_run_grows : forall f w o, s_run pp x tb hs pts w f = Some o -> grows w o.
Proof.
  induction f as [msg s l|k|t seed k IH|t msg k IH|b k IH|msg cs k IH]; intros w o H; cbn [s_run] in H.
  - destruct (tb =? 0); [|discriminate H]. apply add_some in H as (o' & H & ->). exact (s_end_grows _ _ _ _ _ H).
  - destruct (negb (tb =? 0) && _); [|discriminate H]. apply add_some in H as (o' & H & ->). exact (proj1 (s_tail_grows _ _ _ H)).
  - destruct (_ && _); [|exact (IH _ _ _ H)]. destruct (_ || _); [|discriminate H].
    destruct (s_update pp w t seed) as [[w' cl]|] eqn:Hu; [|discriminate H]. apply add_some in H as (o' & H & ->).
    apply s_update_tables in Hu as (H1 & H2 & _). apply IH in H. unfold grows in *. rewrite H1, H2 in H. exact H.
  - destruct (negb _); [exact (IH _ _ _ H)|]. destruct (lookup _ msg) as [s|]; [apply add_some in H as (o' & H & ->); exact (IH _ _ _ H)|].
    destruct (nth_error _ _) as [h|]; [|discriminate H]. destruct (w_us w) as [|u us]; [discriminate H|]. destruct (if t =? tb then w_B w else w_A w) as [|blk rest]; [discriminate H|].
    apply add_some in H as (o' & H & ->). apply IH in H. unfold grows in *. cbn [w_tbl w_ptbl o_tbl o_ptbl] in *. destruct H as [[e He] Hp]. split; [|exact Hp].
    destruct (enter_app (w_tbl w) (hash_input (pp_cs pp) msg)) as [e' He']. rewrite He', <- app_assoc in He. eauto.
  - destruct (nth_error _ _) as [h|]; [|discriminate H]. apply IH in H. exact (grow_tbl _ _ _ H).
  - cbv zeta in H. destruct (nth_error _ _) as [p|]; [|discriminate H]. apply IH in H. exact (grow_ptbl _ _ _ H).
Qed.

(** * The forger for the game of SpecPop.v has the same success *)
Lemma s_tail_sim : forall f w o, s_tail pp hs pts w f = Some o ->
  forall rs, pplay pp x hs (w_tbl w) pts (w_ptbl w) rs (b_tail (w_own w) f) = Some (o_msg o, o_sig o, o_list o, o_tbl o, o_ptbl o, []).
Proof.
  induction f as [msg s l|t k IH|t msg k IH|b k IH|msg cs k IH]; intros w o H rs; cbn [s_tail] in H; try discriminate H; cbn [b_tail].
  - cbn [pplay]. apply s_end_some in H as ((h & ->) & Hl & ->). replace (_ <=? _)%nat with true by lia. reflexivity.
  - destruct (lookup (w_own w) b) as [v|] eqn:Ho; [exact (IH _ _ _ H rs)|]. cbn [pplay]. destruct (nth_error _ _) as [h|]; [|discriminate H].
    exact (IH _ _ _ H rs).
  - cbn [pplay]. cbv zeta in *. destruct (nth_error _ _) as [p|]; [|discriminate H]. exact (IH _ _ _ H rs).
Qed.
Definition copy_of (w : world E) : copy E :=
  Copy (w_time w) (w_cache w) (if w_time w =? tb then s_ssks pp x (w_rho w) else []) (w_g w) (w_B w) (w_ks w) (w_us w)
    (if w_time w =? tb then w_own w else []).
Definition question_ok (o : outcome E) (q : hquestion) : Prop :=
  match q with HKey t => tb <> 0 /\ In t (cover d tb) | HSig t m => In (Signed t m) (o_ev o) end.

Fixpoint hnotes {A} (qs : list hquestion) (o : option (A * list hquestion)) : option (A * list hquestion) :=
  match qs with [] => o | q :: qs' => hnote q (hnotes qs' o) end.
Lemma hnotes_some {A} qs (a : A) q : hnotes qs (Some (a, q)) = Some (a, qs ++ q).
Proof. induction qs as [|q0 qs IH]; [reflexivity|]. cbn [hnotes app]. rewrite IH. reflexivity. Qed.
Lemma ask_keys_play tbl ptbl k rs : forall rho acc, Forall (fun p => in_tree d (fst p) = true) rho ->
  pplay pp x hs tbl pts ptbl (map snd rho ++ rs) (ask_keys (map fst rho) acc k)
  = hnotes (map (fun p => HKey (fst p)) rho) (pplay pp x hs tbl pts ptbl rs (k (acc ++ s_ssks pp x rho))).
Proof.
  induction rho as [|[t r] rho IH]; intros acc Hf; cbn [map fst snd app ask_keys hnotes s_ssks].
  - rewrite app_nil_r. reflexivity.
  - cbn [pplay]. inversion Hf as [|? ? Ht Hf']; subst. cbn [fst] in Ht. rewrite Ht. f_equal. etransitivity; [apply (IH (acc ++ [honest_ssk pp x t (path_of d t) r]) Hf')|].
    rewrite <- app_assoc. reflexivity.
Qed.

Lemma s_run_sim : forall f w o, world_ok pp w -> s_run pp x tb hs pts w f = Some o ->
  (w_time w = tb -> o_rs o = [])
  /\ forall rs, exists q, pplay pp x hs (w_tbl w) pts (w_ptbl w) (o_rs o ++ rs) (simulated pp tb (copy_of w) f) = Some (o_msg o, o_sig o, o_list o, o_tbl o, o_ptbl o, q)
     /\ Forall (question_ok o) q.
Proof.
  induction f as [msg s l|k|t seed k IH|t msg k IH|b k IH|msg cs k IH]; intros w o Hw H; cbn [s_run] in H; cbn [simulated copy_of c_time c_cache c_keys c_g c_B c_ks c_us c_own].
  - destruct (N.eqb_spec tb 0) as [->|]; [|discriminate H]. apply add_some in H as (o' & H & ->). pose proof (wo_time pp w Hw) as Ht.
    split; [intros Hc; lia|]. intros rs. exists []. split; [|constructor]. cbn [pplay o_msg o_sig o_list o_tbl o_ptbl].
    apply s_end_some in H as ((h & ->) & Hl & ->). replace (_ <=? _)%nat with true by lia. reflexivity.
  - destruct (negb (tb =? 0) && (w_time w =? tb)) eqn:Hb; [|discriminate H]. apply add_some in H as (o' & H & ->).
    destruct (s_tail_grows _ _ _ H) as (_ & _ & _ & Hrs). cbn [o_rs app o_msg o_sig o_list o_tbl o_ptbl]. split; [auto|]. intros rs. exists []. split; [|constructor].
    apply andb_true_iff in Hb as [_ Hb]. rewrite Hb. exact (s_tail_sim _ _ _ H _).
  - destruct ((w_time w <? t) && _) eqn:Hr; [|exact (IH _ _ _ Hw H)].
    destruct ((tb =? 0) || _) eqn:Hle; [|discriminate H].
    destruct (s_update pp w t seed) as [[w' cl]|] eqn:Hu; [|discriminate H]. apply add_some in H as (o' & H & ->). cbn [o_rs o_msg o_sig o_list o_tbl o_ptbl].
    destruct (s_update_ok pp w t seed w' cl Hpp Hw ltac:(lia) Hu) as [Hw' Ht'].
    destruct (IH _ _ _ Hw' H) as [Hrs HIH].
    pose proof (wo_time pp w Hw) as Htw. split; [intros Htb; exfalso; lia|].
    destruct (parts_exist pp _ _ _ t Hpp eq_refl (wo_rho pp w Hw) (proj1 Htw) ltac:(lia)) as (pre & ta & r & post & fr & Hp).
    destruct (s_update_form pp w t seed w' cl _ _ _ _ _ Hp Hu) as (k2 & g0 & ks & u1 & v & u2 & u3 & us & l & g' & A' & ks' & us' & cl' & Hks & Hus & Hd & Hw'e & _).
    rewrite Hks, Hus.
    assert (Hn : pred (length (made d (w_time w) t)) = length fr).
    { destruct (pa_made _ _ _ _ _ _ _ _ _ Hp) as [(_ & -> & ->)|(_ & ->)]; reflexivity. }
    rewrite Hn. destruct (draw_keys_streams _ _ _ _ _ _ _ _ _ _ _ _ Hd) as (Hg' & Hks' & Hus' & _). rewrite <- Hg', <- Hks', <- Hus'.
    destruct (s_update_tables _ _ _ _ _ Hu) as (E1 & E2 & _).
    assert (Hcp : Copy t [] (if t =? tb then s_ssks pp x (w_rho w') else []) g' (w_B w) ks' us' [] = copy_of w').
    { rewrite Hw'e. unfold copy_of. cbn [w_time w_cache w_rho w_g w_B w_ks w_us w_own]. destruct (t =? tb); reflexivity. }
    rewrite E1, E2 in HIH. intros rs. destruct (t =? tb) eqn:Etb.
    + assert (Hm : map fst (w_rho w') = cover d t) by (rewrite (wo_rho pp w' Hw'), Ht'; reflexivity).
      rewrite <- Hm. rewrite (Hrs ltac:(lia)) in HIH |- *. rewrite app_nil_r. unfold s_rest. rewrite <- app_assoc.
      specialize (HIH ((w_trash w' ++ map scalar_of (w_A w')) ++ rs)). cbn [app] in HIH. destruct HIH as (q & HIH & Hq).
      exists (map (fun p => HKey (fst p)) (w_rho w') ++ q). split.
      * rewrite ask_keys_play.
        -- cbn [app]. rewrite Hcp. etransitivity; [exact (f_equal (hnotes _) HIH)|]. apply hnotes_some.
        -- pose proof (cover_tiling d t ltac:(pose proof (ppo_depth pp Hpp); lia) ltac:(lia)) as Htil. apply tiling_nodes in Htil. rewrite <- Hm, Forall_map in Htil.
           eapply Forall_impl; [|exact Htil]. cbv beta. intros a Ha. unfold in_tree. lia.
      * apply Forall_app. split; [|exact Hq]. apply Forall_map, Forall_forall. intros p Hin. cbn [question_ok]. split; [lia|].
        replace tb with t by lia. rewrite <- Hm. apply in_map, Hin.
    + cbn [app]. rewrite Hcp. apply HIH.
  - destruct (N.eqb_spec (w_time w) t) as [Ht|Ht]; cbn [negb] in *; [|exact (IH _ _ _ Hw H)].
    destruct (lookup (w_cache w) msg) as [s|].
    { apply add_some in H as (o' & H & ->). cbn [o_rs app o_msg o_sig o_list o_tbl o_ptbl]. destruct (IH _ _ _ Hw H) as [Hrs HIH]. split; [exact Hrs|]. intros rs.
      destruct (HIH rs) as (q & HI & Hq). exists q. split; [exact HI|]. eapply Forall_impl; [|exact Hq]. intros [t'|t' m']; cbn [question_ok o_ev]; [auto|]. intros Hin. right. exact Hin. }
    destruct (nth_error hs _) as [h|] eqn:Hh; [|discriminate H]. destruct (w_us w) as [|u us] eqn:Hus; [discriminate H|].
    destruct (if t =? tb then w_B w else w_A w) as [|blk rest] eqn:Hbl; [discriminate H|].
    cbv zeta in H. apply add_some in H as (o' & H & ->). cbn [o_rs o_msg o_sig o_list o_tbl o_ptbl].
    match type of H with s_run _ _ _ _ _ ?w0 _ = _ => set (w' := w0) in * end.
    assert (Hw' : world_ok pp w'). { destruct Hw as [Hw1 Hw2 Hw3]. constructor; cbn [w' w_time w_rho]; rewrite <- ?Ht; assumption. }
    destruct (IH _ _ _ Hw' H) as [Hrs HIH]. cbn [w' w_time] in Hrs.
    assert (Hqm : forall q, Forall (question_ok o') q -> Forall (question_ok (Outcome (o_msg o') (o_sig o') (o_list o') (o_tbl o') (o_ptbl o') ([Signed t msg] ++ o_ev o')
        (calls (w_g w) (sign_info msg t ++ [1]) u blk ++ o_calls o') ((if t =? tb then [] else [(snd (hd (0, 0) (w_rho w)) + scalar_of blk) mod fr_modulus]) ++ o_rs o'))) q).
    { intros q Hq. eapply Forall_impl; [|exact Hq]. intros [t'|t' m']; cbn [question_ok o_ev]; [auto|]. intros Hin. right. exact Hin. }
    destruct (t =? tb) eqn:Etb.
    + split; [intros _; apply Hrs; lia|]. intros rs. specialize (Hrs ltac:(lia)). rewrite Hrs in *. cbn [app] in *. destruct (HIH rs) as (q & HI & Hq). exists q. split; [|exact (Hqm q Hq)].
      rewrite Ht, Etb, Hbl. cbn [pplay]. rewrite Hh.
      destruct (w_rho w) as [|[t1 r1] rho] eqn:Hrho.
      { exfalso. pose proof (wo_rho pp w Hw) as Hm. rewrite Hrho in Hm. pose proof (cover_tiling d (w_time w) ltac:(pose proof (ppo_depth pp Hpp); lia) (wo_time pp w Hw)) as Htil.
        rewrite <- Hm in Htil. apply tiling_nil_inv in Htil. pose proof (wo_time pp w Hw). unfold last_time in *. lia. }
      assert (Ht1 : t1 = t).
      { pose proof (wo_rho pp w Hw) as Hm. rewrite Hrho in Hm. pose proof (cover_tiling d (w_time w) ltac:(pose proof (ppo_depth pp Hpp); lia) (wo_time pp w Hw)) as Htil.
        rewrite <- Hm in Htil. cbn [map fst] in Htil. apply tiling_inv in Htil as [Htil _]. lia. }
      subst t1. change (s_ssks pp x ((t, r1) :: rho)) with (honest_ssk pp x t (path_of d t) r1 :: s_ssks pp x rho).
      pose proof (sign_fr_honest L Debug pp x (SecKey (pp_cs pp) t (honest_ssk pp x t (path_of d t) r1 :: s_ssks pp x rho) (w_g w)) (s_ssks pp x rho) (path_of d t) r1 (scalar_of h) (scalar_of blk) Hpp) as Hsg.
      cbn [sec_time sec_ssk] in Hsg. rewrite Hsg; [|apply path_node; pose proof (wo_time pp w Hw); lia|reflexivity].
      rewrite (honest_sig_mod L pp x t (path_of d t) (scalar_of h) (r1 + scalar_of blk) Hpp).
      etransitivity; [|exact HI]. cbn [w' w_tbl w_ptbl]. f_equal. f_equal. unfold copy_of. cbn [w' w_time w_cache w_rho w_g w_B w_ks w_us w_own]. rewrite Etb. reflexivity.
    + split; [intros Hc; lia|]. intros rs. destruct (HIH rs) as (q & HI & Hq). exists (HSig t msg :: q). split.
      * rewrite Ht, Etb. cbn [app pplay]. replace (in_tree d t) with true by (pose proof (wo_time pp w Hw); unfold in_tree; lia). rewrite Hh.
        etransitivity; [|exact (f_equal (hnote (HSig t msg)) HI)]. f_equal. cbn [w' w_tbl w_ptbl]. f_equal. f_equal. unfold copy_of. cbn [w' w_time w_cache w_rho w_g w_B w_ks w_us w_own]. rewrite Etb. reflexivity.
      * constructor; [left; reflexivity|exact (Hqm q Hq)].
  - destruct (nth_error hs _) as [h|] eqn:Hh; [|discriminate H].
    assert (Hw' : world_ok pp (set_tbl w (enter (w_tbl w) b))) by (destruct Hw; constructor; assumption).
    destruct (IH _ _ _ Hw' H) as [Hrs HIH]. split; [exact Hrs|]. intros rs. cbn [pplay]. rewrite Hh. exact (HIH rs).
  - cbv zeta in H. destruct (nth_error pts _) as [p|] eqn:Hh; [|discriminate H].
    assert (Hw' : world_ok pp (set_ptbl w (enter (w_ptbl w) (point_input msg cs)))) by (destruct Hw; constructor; assumption).
    destruct (IH _ _ _ Hw' H) as [Hrs HIH]. split; [exact Hrs|]. intros rs. cbn [pplay]. cbv zeta. rewrite Hh. exact (HIH rs).
Qed.
End Sim.
