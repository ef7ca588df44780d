(** Proofs about parameters of different depth ([SpecDep]). *)
From Verif Require Import Base Env GroupFacts Time SpecTime TimeFacts Prng SpecPrng PrngFacts SubKey SecretKey Keys Sig Api SpecKey SubKeyFacts SpecUpdate KeyFacts
  HistoryFacts UpdateFacts KeyProps SpecAgg VerProps AggProps SpecParam OwnProps Toy ToyRun SpecOwn SpecDep.
From Coq Require Import Lia ZifyBool ZifyNat ZifyN.
Local Open Scope N_scope.
Local Opaque fr_modulus.

(** * Parameters *)
Lemma spec_param_shallower : forall (E : env) (h2c : bytes -> bytes -> G1 E) seed cs d d', (d <= d')%nat ->
  spec_param h2c seed cs d = shallower d (spec_param h2c seed cs d').
Proof.
  intros E h2c seed cs d d' Hd. unfold spec_param, shallower. cbn [pp_cs pp_g2 pp_h pp_hlist]. f_equal.
  rewrite firstn_map. f_equal. replace (d' + 1)%nat with ((d + 1) + (d' - d))%nat by lia.
  rewrite (seq_app (d + 1) (d' - d) 0), firstn_app, seq_length, Nat.sub_diag, firstn_all2, app_nil_r by (rewrite seq_length; lia). reflexivity.
Qed.
Lemma firstn_forall {A} (P : A -> Prop) n : forall l, Forall P l -> Forall P (firstn n l).
Proof. induction n as [|n IH]; intros [|a l] H; cbn [firstn]; [constructor|constructor|constructor|]. constructor; [exact (Forall_inv H)|apply IH, (Forall_inv_tail H)]. Qed.
Lemma shallower_ok : forall (E : env) (pp : pubparam E) d, pp_ok pp -> (1 <= d <= pp_depth pp)%nat -> pp_ok (shallower d pp).
Proof.
  intros E pp d [H1 H2 H3 H4 H5] Hd. constructor; cbn [shallower pp_depth pp_hlist pp_h pp_g2]; auto; [lia| |apply firstn_forall, H3].
  rewrite firstn_length. lia.
Qed.
Lemma shallower_akin {E} (pp : pubparam E) d : akin pp (shallower d pp).
Proof. split; [reflexivity|]. split; reflexivity. Qed.

Lemma lincomb_firstn {E : env} : forall v (l : list (G1 E)) n, (length v <= n)%nat -> lincomb v (firstn n l) = lincomb v l.
Proof.
  induction v as [|x v IH]; intros l n Hn; [reflexivity|]. destruct n as [|n]; [cbn in Hn; lia|].
  destruct l as [|h l]; [reflexivity|]. cbn [firstn lincomb]. rewrite IH by (cbn in Hn; lia). reflexivity.
Qed.
Lemma skipn_firstn_S {A} n (l : list A) : skipn 1 (firstn (S n) l) = firstn n (skipn 1 l).
Proof. destruct l; [destruct n; reflexivity|]. reflexivity. Qed.
Lemma node_val_shallower {E} (pp : pubparam E) d v : (length v <= d)%nat -> node_val (shallower d pp) v = node_val pp v.
Proof.
  intros Hv. unfold node_val. cbn [shallower pp_hlist]. rewrite Nat.add_1_r, skipn_firstn_S, lincomb_firstn by exact Hv.
  destruct (pp_hlist pp) as [|h l]; reflexivity.
Qed.
Lemma recut_honest {E} (pp : pubparam E) d x t v r t' : pp_ok pp -> (d <= pp_depth pp)%nat -> (length v < d)%nat ->
  recut (pp_depth pp - d) t' (honest_ssk pp x t v r) = honest_ssk (shallower d pp) x t' v r.
Proof.
  intros Hpp Hd Hv. unfold recut, honest_ssk. cbn [sk_g2r sk_hpoly sk_hvec]. rewrite node_val_shallower by lia. cbn [shallower pp_depth pp_g2 pp_h pp_hlist].
  f_equal. pose proof (ppo_len pp Hpp) as Hl. rewrite map_length, firstn_length, skipn_length, firstn_map. f_equal.
  rewrite firstn_firstn, skipn_firstn_comm, firstn_firstn. f_equal. lia.
Qed.

(** * Key generation *)
Lemma key_gen_shallower : forall (E : env) (pp : pubparam E) d seed pk sk pop, pp_ok pp -> (d <= pp_depth pp)%nat ->
  key_gen seed pp = Ok (pk, sk, pop) ->
  key_gen seed (shallower d pp)
  = Ok (pk, SecKey (sec_cs sk) (sec_time sk) (map (recut (pp_depth pp - d) 1) (sec_ssk sk)) (sec_prng sk), pop).
Proof.
  intros E pp d seed pk sk pop Hpp Hd. unfold key_gen. destruct (length seed <? 32)%nat; [discriminate|].
  change (master_key_gen seed (shallower d pp)) with (master_key_gen seed pp).
  destruct (master_key_gen seed pp) as [[[[pk0 msk] pop0] g]|e|p]; try discriminate. cbn [bind].
  change (pk_init (shallower d pp) pk0) with (pk_init pp pk0). destruct (pk_init pp pk0) as [pk1|e|p]; try discriminate. cbn [bind].
  unfold sk_init. cbn [shallower pp_cs]. destruct (negb (valid_cs (pp_cs pp))); [discriminate|].
  destruct (sample_then_update _ _ _) as [[r g']|e|p]; try discriminate. cbn [bind]. unfold ssk_init.
  pose proof (ppo_len pp Hpp) as Hl. cbn [shallower pp_hlist pp_depth pp_g2].
  destruct (pp_hlist pp) as [|h0 hl] eqn:Eh; [cbn in Hl; lia|]. rewrite !Nat.add_1_r. cbn [firstn nth_res nth_error bind skipn].
  intros H. injection H as <- <- <-. cbn [sec_cs sec_time sec_ssk sec_prng map]. f_equal. f_equal. f_equal. f_equal. f_equal.
  unfold recut. cbn [sk_g2r sk_hpoly sk_hvec]. f_equal. rewrite map_length, firstn_length, firstn_map. f_equal.
  rewrite firstn_firstn. rewrite firstn_firstn. cbn [length] in Hl. f_equal. lia.
Qed.

(** * A sub key serves every smaller depth *)
Lemma lone_signs {E} (L : env_laws E) m m' (pp : pubparam E) x t v r msg g cs : pp_ok pp -> valid_cs (pp_cs pp) = true -> node_at (pp_depth pp) t v ->
  exists s, sign_present m t pp msg (lone_key (pp_cs pp) (honest_ssk pp x t v r) g) = (Ok s, lone_key (pp_cs pp) (honest_ssk pp x t v r) g)
    /\ sig_time s = t /\ verify m' s (PubKey cs (g2_mul x (pp_g2 pp))) pp msg = Ok true.
Proof.
  intros Hpp Hcs Hn. eexists. unfold sign_present, sbind, sget, slift. cbn [lone_key sec_time honest_ssk sk_t]. rewrite N.eqb_refl. cbn [negb].
  unfold sign_bytes. cbn [sec_cs sec_time sec_prng]. rewrite Hcs, !N.eqb_refl. cbn [negb].
  rewrite sample_spec by apply (hash_len_env L). cbn [bind]. rewrite (hash_msg_spec L). cbn [bind].
  fold (honest_ssk pp x t v r). set (sk := SecKey (pp_cs pp) t [honest_ssk pp x t v r] g).
  pose proof (fun k => sign_fr_honest L m pp x sk [] v r (msg_scalar pp msg) k Hpp Hn eq_refl) as Hs.
  change (sec_time sk) with t in Hs. rewrite Hs. split; [reflexivity|]. split; [reflexivity|]. apply (verify_honest L); assumption.
Qed.
Lemma deep_key_signs : forall (E : env) (L : env_laws E) m m1 m2 (pp : pubparam E) pk sk s v d t w t' msg g,
  pp_ok pp -> (1 <= d <= pp_depth pp)%nat -> reachable m pp pk sk -> In s (sec_ssk sk) -> node_at (pp_depth pp) (sk_t s) v ->
  node_at d t v -> node_at d t' (v ++ w) ->
  exists s' sg, (w = [] /\ s' = recut (pp_depth pp - d) t s \/ w <> [] /\ delegate m1 t' d (recut (pp_depth pp - d) t s) = (Ok tt, s'))
    /\ sign_present m1 t' (shallower d pp) msg (lone_key (pp_cs pp) s' g) = (Ok sg, lone_key (pp_cs pp) s' g)
    /\ sig_time sg = t' /\ verify m2 sg pk (shallower d pp) msg = Ok true.
Proof.
  intros E L m m1 m2 pp pk sk s v d t w t' msg g Hpp Hd Hr Hs Hv Ht Ht'.
  destruct (reachable_good L m pp pk sk Hpp Hr) as (x & _ & -> & Hg & Hcs).
  destruct (proj1 (Forall_forall _ _) (gsk_honest _ _ _ Hg) s Hs) as (v' & r & Hn & He). rewrite (node_at_fun _ _ _ _ Hn Hv) in He.
  pose proof (shallower_ok E pp d Hpp Hd) as Hok. pose proof (proj2 (node_at_turn _ _ _ Ht)) as Hlen.
  assert (Hrc : recut (pp_depth pp - d) t s = honest_ssk (shallower d pp) x t v r) by (rewrite He; apply recut_honest; [exact Hpp|lia|exact Hlen]).
  destruct (lone_signs L m1 m2 (shallower d pp) x t' (v ++ w) r msg g (pp_cs pp) Hok Hcs Ht') as (sg & H1 & H2 & H3).
  exists (honest_ssk (shallower d pp) x t' (v ++ w) r), sg. split; [|split; [exact H1|split; [exact H2|exact H3]]].
  rewrite Hrc. destruct w as [|y w].
  - left. split; [reflexivity|]. rewrite app_nil_r in *. rewrite (node_at_inj _ _ _ _ Ht Ht'). reflexivity.
  - right. split; [discriminate|]. apply (delegate_honest L m1 (shallower d pp)); [exact Hok|exact Ht|exact Ht'|discriminate].
Qed.
Lemma node_prefix d t v w : node_at d t (v ++ w) -> exists a, node_at d a v.
Proof.
  intros H. apply node_at_ptime in H as [[Hf Hl] _]. exists (ptime d v). apply node_at_ptime. split; [|reflexivity].
  rewrite app_length in Hl. apply Forall_app in Hf as [Hf _]. split; [exact Hf|lia].
Qed.
Lemma deep_key_reach : forall (E : env) (L : env_laws E) m m1 m2 (pp : pubparam E) pk sk d p t T msg g,
  pp_ok pp -> (1 <= d <= pp_depth pp)%nat -> reachable m pp pk sk -> node_at d t p -> node_at (pp_depth pp) T p -> sec_time sk <= T ->
  exists s a s' sg, In s (sec_ssk sk) /\ a <= t
    /\ (a = t /\ s' = recut (pp_depth pp - d) a s \/ a < t /\ delegate m1 t d (recut (pp_depth pp - d) a s) = (Ok tt, s'))
    /\ sign_present m1 t (shallower d pp) msg (lone_key (pp_cs pp) s' g) = (Ok sg, lone_key (pp_cs pp) s' g)
    /\ sig_time sg = t /\ verify m2 sg pk (shallower d pp) msg = Ok true.
Proof.
  intros E L m m1 m2 pp pk sk d p t T msg g Hpp Hd Hr Ht HT Hle. destruct (reachable_good L m pp pk sk Hpp Hr) as (x & _ & _ & Hg & _).
  destruct (tiling_cover _ _ _ T (gsk_til _ _ _ Hg) ltac:(pose proof (node_at_range _ _ _ HT); lia)) as (ta & Hin & (va & w & Hna & Hn) & _).
  apply in_map_iff in Hin as (s & <- & Hin). rewrite <- (node_at_fun _ _ _ _ Hn HT) in Ht.
  destruct (node_prefix _ _ _ _ Ht) as [a Ha].
  destruct (deep_key_signs E L m m1 m2 pp pk sk s va d a w t msg g Hpp Hd Hr Hin Hna Ha Ht) as (s' & sg & H1 & H2).
  exists s, a, s', sg. split; [exact Hin|]. destruct H1 as [[-> H1]|[Hw H1]].
  - rewrite app_nil_r in Ht. pose proof (node_at_inj _ _ _ _ Ha Ht) as He. split; [lia|]. split; [left; split; assumption|exact H2].
  - assert (Hlt : a < t) by (apply (strictly_below_interval d a va t Ha); exists va, w; auto).
    split; [lia|]. split; [right; split; assumption|exact H2].
Qed.
Lemma deep_time : forall d d' p t T, (d <= d')%nat -> node_at d t p -> node_at d' T p -> t <= T.
Proof.
  intros d d' p t T Hd Ht HT. apply node_at_ptime in Ht as [_ ->]. apply node_at_ptime in HT as [_ ->].
  revert d d' Hd. induction p as [|x p IH]; intros d d' Hd; [destruct d, d'; cbn; lia|].
  destruct d as [|d], d' as [|d']; cbn [ptime]; try lia.
  - pose proof (ptime_ge1 (S d') (x :: p)) as H. cbn [ptime] in H. exact H.
  - pose proof (IH d d' ltac:(lia)). pose proof (pow2_le d d' ltac:(lia)). destruct (x =? 2); lia.
Qed.

(** * The wrong parameters *)
Lemma pairing_same_r {E} (L : env_laws E) (x : G2 E) (y z : G1 E) : g2_insub x = true -> g1_insub y = true -> g1_insub z = true ->
  (pairing x y = pairing x z <-> y = z \/ x = g2_zero).
Proof.
  intros Hx Hy Hz. split.
  - intros H. destruct (g2_eqb x g2_zero) eqn:He; [right; apply (l2_eqb E L), He|]. left.
    apply (pairing_inj_r L x); auto. intros ->. rewrite (proj2 (l2_eqb E L g2_zero g2_zero) eq_refl) in He. discriminate He.
  - intros [->| ->]; [reflexivity|]. rewrite !(pairing_0_l L); auto.
Qed.
Lemma other_parameters : forall (E : env) (L : env_laws E) m m1 m2 (pp pp' : pubparam E) pk sk msg,
  pp_ok pp -> pp_ok pp' -> akin pp pp' -> reachable m pp pk sk -> sec_time sk <= last_time (pp_depth pp') ->
  exists v v' s0 rest sg, node_at (pp_depth pp) (sec_time sk) v /\ node_at (pp_depth pp') (sec_time sk) v' /\ sec_ssk sk = s0 :: rest
    /\ sign_present m1 (sec_time sk) pp' msg sk = (Ok sg, sk) /\ sig_time sg = sec_time sk
    /\ (verify m2 sg pk pp' msg = Ok true
        <-> sig_val pp v (msg_scalar pp msg) = sig_val pp' v' (msg_scalar pp msg) \/ sk_g2r s0 = g2_zero)
    /\ (verify m2 sg pk pp msg = Ok true
        <-> sig_val pp v (msg_scalar pp msg) = sig_val pp' v' (msg_scalar pp msg)
            \/ g2_mul (spec_scalar (sha512 E) (sec_prng sk) (sign_info msg (sec_time sk))) (pp_g2 pp) = g2_zero).
Proof.
  intros E L m m1 m2 pp pp' pk sk msg Hpp Hpp' (Kc & K2 & Kh) Hr Ht.
  destruct (reachable_good L m pp pk sk Hpp Hr) as (x & _ & -> & Hg & Hcs).
  destruct (good_sk_head pp x sk Hg) as (v & r & ssks & Hn & Hs).
  destruct (node_at_ex (pp_depth pp') (sec_time sk)) as [v' Hn'].
  { split; [apply (node_at_range _ _ _ Hn)|exact Ht]. }
  set (k := spec_scalar (sha512 E) (sec_prng sk) (sign_info msg (sec_time sk))).
  set (M := msg_scalar pp msg). set (F := sig_val pp v M). set (F' := sig_val pp' v' M).
  assert (HF : g1_insub F = true) by (apply (sig_val_insub L), Hpp). assert (HF' : g1_insub F' = true) by (apply (sig_val_insub L), Hpp').
  assert (HG : g2_insub (pp_g2 pp) = true) by apply Hpp. assert (Hh : g1_insub (pp_h pp) = true) by apply Hpp.
  set (sg := Signature (pp_cs pp) (sec_time sk) (g2_mul (r + k) (pp_g2 pp)) (g1_add (g1_mul x (pp_h pp)) (g1_add (g1_mul r F) (g1_mul k F')))).
  assert (HM : msg_scalar pp' msg = M) by (unfold M, msg_scalar; rewrite Kc; reflexivity).
  assert (Hsign : sign_present m1 (sec_time sk) pp' msg sk = (Ok sg, sk)).
  { unfold sign_present, sbind, sget, slift. rewrite N.eqb_refl. cbn [negb]. unfold sign_bytes.
    rewrite Kc, Hcs, (gsk_cs _ _ _ Hg), !N.eqb_refl. cbn [negb].
    rewrite sample_spec by apply (hash_len_env L). cbn [bind]. rewrite (hash_msg_spec L pp msg). cbn [bind].
    fold (sign_info msg (sec_time sk)). fold k. fold M. unfold sign_fr. rewrite N.eqb_refl. cbn [negb]. unfold first_ssk. rewrite Hs. cbn [bind].
    pose proof (ppo_depth pp' Hpp') as Hd. pose proof (ppo_len pp' Hpp') as Hl. destruct (node_at_turn _ _ _ Hn') as [Htu Hlv].
    unfold ssk_time_vec. cbn [honest_ssk sk_t sk_g2r sk_hpoly].
    rewrite (proj2 (tv_init_ok m1 (pp_depth pp') _ v' ltac:(lia)) Hn'). cbn [bind tv_vec].
    rewrite (nth_res_ok (pp_hlist pp') 0 g1_zero) by lia. cbn [bind]. rewrite (poly_loop_node L) by auto. cbn [bind].
    rewrite (nth_res_ok (pp_hlist pp') _ g1_zero) by lia. cbn [bind].
    fold (honest_ssk pp x (sec_time sk) v r). rewrite last_hv by (auto; apply (node_at_turn _ _ _ Hn)). cbn [bind].
    rewrite K2. unfold sg, F, F', sig_val. f_equal. f_equal. rewrite Kc. f_equal; [g2_solve L|g1_solve L]. }
  assert (Hpk : g2_insub (g2_mul x (pp_g2 pp)) = true) by apply (g2_mul_insub L), HG.
  assert (Hc01 : pp_cs pp = 0 \/ pp_cs pp = 1) by (apply valid_cs_iff, Hcs).
  assert (Hxh : pairing (pp_g2 pp) (g1_mul x (pp_h pp)) = pairing (g2_mul x (pp_g2 pp)) (pp_h pp)) by (symmetry; apply (pairing_mul_swap L); auto).
  assert (Hsub1 : g2_insub (sig_1 sg) = true) by (apply (g2_mul_insub L), HG).
  assert (Hsub2 : g1_insub (sig_2 sg) = true) by (unfold sg; cbn [sig_2]; auto using (l1_sub_add E L), (g1_mul_insub L)).
  assert (Hlhs : pairing (pp_g2 pp) (sig_2 sg)
    = gt_mul (gt_mul (pairing (g2_mul r (pp_g2 pp)) F) (pairing (g2_mul k (pp_g2 pp)) F')) (pairing (g2_mul x (pp_g2 pp)) (pp_h pp))).
  { unfold sg. cbn [sig_2]. rewrite !(lp_add_r E L), Hxh, <- !(pairing_mul_swap L); auto using (l1_sub_add E L), (g1_mul_insub L).
    apply (lt_comm E L). }
  assert (Hrhs : forall Y, g1_insub Y = true -> pairing (sig_1 sg) Y = gt_mul (pairing (g2_mul r (pp_g2 pp)) Y) (pairing (g2_mul k (pp_g2 pp)) Y)).
  { intros Y HY. unfold sg. cbn [sig_1]. rewrite (l2_mul_add E L), (lp_add_l E L); auto using (g2_mul_insub L). }
  assert (Hcan : forall a b, gt_mul a (pairing (g2_mul x (pp_g2 pp)) (pp_h pp)) = gt_mul b (pairing (g2_mul x (pp_g2 pp)) (pp_h pp)) -> a = b).
  { intros a b He. rewrite !(lt_comm E L _ (pairing (g2_mul x (pp_g2 pp)) (pp_h pp))) in He. apply (gt_cancel L) in He; auto. }
  exists v, v', (honest_ssk pp x (sec_time sk) v r), ssks, sg.
  split; [exact Hn|]. split; [exact Hn'|]. split; [exact Hs|]. split; [exact Hsign|]. split; [reflexivity|]. split.
  - rewrite (verify_equation E L) by (auto; exact Hpk). rewrite HM, K2, Kh, Kc. cbn [pk_pk honest_ssk sk_g2r].
    rewrite <- (pairing_same_r L) by auto using (g2_mul_insub L). split.
    + intros (_ & _ & _ & _ & w & Hw & He). rewrite (node_at_fun _ _ _ _ Hw Hn') in He. fold F' in He. rewrite Hlhs, (Hrhs F' HF') in He. apply Hcan in He.
      rewrite !(lt_comm E L _ (pairing (g2_mul k (pp_g2 pp)) F')) in He. apply (gt_cancel L) in He; auto using (g2_mul_insub L).
    + intros He. fold M F F' in He. split; [exact Hc01|]. split; [reflexivity|]. split; [exact Hsub1|]. split; [exact Hsub2|]. exists v'. split; [exact Hn'|].
      fold F'. rewrite Hlhs, (Hrhs F' HF'), He. reflexivity.
  - rewrite (verify_equation E L) by (auto; exact Hpk). fold M. cbn [pk_pk honest_ssk sk_g2r].
    rewrite <- (pairing_same_r L) by auto using (g2_mul_insub L). split.
    + intros (_ & _ & _ & _ & w & Hw & He). rewrite (node_at_fun _ _ _ _ Hw Hn) in He. fold F in He. rewrite Hlhs, (Hrhs F HF) in He. apply Hcan in He.
      apply (gt_cancel L) in He; auto using (g2_mul_insub L).
    + intros He. fold M F F' in He. split; [exact Hc01|]. split; [reflexivity|]. split; [exact Hsub1|]. split; [exact Hsub2|]. exists v. split; [exact Hn|].
      fold F. rewrite Hlhs, (Hrhs F HF), He. reflexivity.
Qed.

Lemma accepted_in_both : forall (E : env) (L : env_laws E) m m' (pp pp' : pubparam E) s pk msg v t' v' msg',
  pp_ok pp -> pp_ok pp' -> akin pp pp' -> g2_insub (pk_pk pk) = true -> sig_1 s <> g2_zero -> verify m s pk pp msg = Ok true ->
  node_at (pp_depth pp) (sig_time s) v -> node_at (pp_depth pp') t' v' ->
  (verify m' (relabel t' s) pk pp' msg' = Ok true <-> sig_val pp v (msg_scalar pp msg) = sig_val pp' v' (msg_scalar pp' msg')).
Proof.
  intros E L m m' pp pp' s pk msg v t' v' msg' Hpp Hpp' (Kc & K2 & Kh) Hpk Hnz H Hn Hn'.
  apply (verify_equation E L) in H as (Hc & Hs & H1 & H2 & w & Hw & He); auto. rewrite (node_at_fun _ _ _ _ Hw Hn) in He.
  pose proof (sig_val_insub L pp v (msg_scalar pp msg) Hpp) as HF. pose proof (sig_val_insub L pp' v' (msg_scalar pp' msg') Hpp') as HF'.
  assert (Hh : g1_insub (pp_h pp) = true) by apply Hpp.
  rewrite (verify_equation E L) by auto. cbn [relabel sig_cs sig_time sig_1 sig_2]. rewrite K2, Kh, Kc. split.
  - intros (_ & _ & _ & _ & w' & Hw' & He'). rewrite (node_at_fun _ _ _ _ Hw' Hn'), He in He'.
    rewrite !(lt_comm E L _ (pairing (pk_pk pk) (pp_h pp))) in He'. apply (gt_cancel L) in He'; auto. apply (pairing_inj_r L) in He'; auto.
  - intros HE. split; [exact Hc|]. split; [exact Hs|]. split; [exact H1|]. split; [exact H2|]. exists v'. split; [exact Hn'|]. rewrite <- HE. exact He.
Qed.

From Coq Require Import String.
(** The key at time 7 of depth 4 has the sub key of the node [2], which is time 5 in the tree of depth 3. *)
Lemma depth_separate_refuted : ~ (forall (E : env), env_laws E -> forall m (pp : pubparam E) pk sk s d t sg msg g,
  pp_ok pp -> (1 <= d <= pp_depth pp)%nat -> reachable m pp pk sk -> In s (sec_ssk sk) -> t < sec_time sk ->
  fst (sign_present m t (shallower d pp) msg (lone_key (pp_cs pp) (recut (pp_depth pp - d) t s) g)) = Ok sg ->
  verify m sg pk (shallower d pp) msg <> Ok true).
Proof.
  intros H. set (s := nth 2 (sec_ssk tsk7) (tssk 0 0)).
  assert (Hs : In s (sec_ssk tsk7)) by (right; right; left; reflexivity).
  assert (Hn : node_at (pp_depth tpp4) (sk_t s) [2]) by (split; [discriminate|reflexivity]).
  assert (Hn3 : node_at 3 5 [2]) by (split; [discriminate|reflexivity]).
  destruct (deep_key_signs toy toy_laws Debug Debug Debug tpp4 tpk4 tsk7 s [2] 3 5 [] 5 (str "hello") [] tpp4_ok ltac:(cbn; lia) tsk7_reachable Hs Hn Hn3 Hn3)
    as (s' & sg & [[_ ->]|[Hw _]] & H1 & _ & H2); [|apply Hw; reflexivity].
  refine (H toy toy_laws Debug tpp4 tpk4 tsk7 s 3%nat 5 sg (str "hello") [] tpp4_ok _ tsk7_reachable Hs _ _ H2); [cbn; lia|reflexivity|].
  rewrite H1. reflexivity.
Qed.
