(** Proofs about parameters with too few or too many generators ([SpecSpare]). *)
From Verif Require Import Base Env GroupFacts Time SpecTime TimeFacts Hkdf Prng SpecPrng PrngFacts SubKey SecretKey Keys Sig Api SpecKey SubKeyFacts SpecUpdate KeyFacts
  HistoryFacts UpdateFacts KeyProps SpecAgg VerProps AggProps ShapeFacts Toy ToyRun SpecSpare.
From Coq Require Import Lia ZifyBool ZifyNat ZifyN.
Local Open Scope N_scope.
Local Opaque fr_modulus.

(** * Only the first [depth + 1] generators are read *)
Lemma nth_res_firstn {A} : forall n (l : list A) i, (i < n)%nat -> nth_res (firstn n l) i = nth_res l i.
Proof.
  induction n as [|n IH]; intros l i Hi; [lia|]. destruct l as [|a l]; [reflexivity|]. destruct i as [|i]; [reflexivity|].
  exact (IH l i ltac:(lia)).
Qed.
Section used.
Context {E : env} (pp pp' : pubparam E) (Hu : same_used pp pp').
Lemma used_nth i : (i <= pp_depth pp)%nat -> nth_res (pp_hlist pp') i = nth_res (pp_hlist pp) i.
Proof.
  intros Hi. destruct Hu as (_ & _ & _ & _ & H). rewrite <- (nth_res_firstn (pp_depth pp + 1) (pp_hlist pp')), H, nth_res_firstn by lia. reflexivity.
Qed.
Lemma used_poly : forall v i acc, (i + length v <= pp_depth pp)%nat -> poly_loop (pp_hlist pp') i v acc = poly_loop (pp_hlist pp) i v acc.
Proof.
  induction v as [|x v IH]; intros i acc Hl; [reflexivity|]. cbn [poly_loop length] in *. rewrite used_nth by lia.
  destruct (nth_res (pp_hlist pp) (i + 1)); [|reflexivity|reflexivity]. cbn [bind]. apply IH. lia.
Qed.
Lemma used_poly_mul : forall v i acc, (i + length v <= pp_depth pp)%nat -> poly_loop_mul (pp_hlist pp') i v acc = poly_loop_mul (pp_hlist pp) i v acc.
Proof.
  induction v as [|x v IH]; intros i acc Hl; [reflexivity|]. cbn [poly_loop_mul length] in *. rewrite used_nth by lia.
  destruct (nth_res (pp_hlist pp) (i + 1)); [|reflexivity|reflexivity]. cbn [bind]. apply IH. lia.
Qed.
Lemma used_hv r : forall hv base, (base + length hv <= pp_depth pp + 1)%nat -> hv_loop (pp_hlist pp') base r hv = hv_loop (pp_hlist pp) base r hv.
Proof.
  induction hv as [|x hv IH]; intros base Hl; [reflexivity|]. cbn [hv_loop length] in *. rewrite used_nth by lia.
  rewrite IH by lia. reflexivity.
Qed.
Context (Hd : (pp_depth pp < 64)%nat).
Lemma used_path m t tv : tv_init m t (pp_depth pp) = Ok tv -> node_at (pp_depth pp) t (tv_vec tv) /\ (length (tv_vec tv) < pp_depth pp)%nat.
Proof. intros H. destruct (tv_init_node m (pp_depth pp) t tv Hd H) as [Ht Hn]. split; [exact Hn|exact (proj2 (node_at_turn _ _ _ Hn))]. Qed.

Lemma used_verify_fr m s pk msg : verify_fr m s pk pp' msg = verify_fr m s pk pp msg.
Proof.
  unfold verify_fr. destruct (_ || _); [reflexivity|]. rewrite (used_nth 0) by lia. destruct (nth_res (pp_hlist pp) 0) as [h0|e|p]; [|reflexivity|reflexivity].
  cbn [bind]. destruct Hu as (-> & _ & -> & -> & _). destruct (tv_init m (sig_time s) (pp_depth pp)) as [tv|e|p] eqn:Et; [|reflexivity|reflexivity].
  destruct (used_path m _ tv Et) as [_ Hl]. rewrite used_poly by lia. rewrite used_nth by lia. reflexivity.
Qed.
Lemma used_verify m s pk msg : verify m s pk pp' msg = verify m s pk pp msg.
Proof.
  unfold verify. pose proof Hu as (_ & -> & _). destruct (negb _); [reflexivity|]. destruct (negb _); [reflexivity|].
  destruct (hash_msg_into_fr _ _ _) as [hm|e|p]; [|reflexivity|reflexivity]. apply used_verify_fr.
Qed.
Lemma used_verify_agg m s pks msg : verify_aggregated m s pks pp' msg = verify_aggregated m s pks pp msg.
Proof.
  unfold verify_aggregated. pose proof Hu as (_ & -> & _). destruct (negb _); [reflexivity|]. destruct (negb _); [reflexivity|].
  destruct pks as [|k pks]; [reflexivity|]. apply used_verify.
Qed.
Lemma used_sign_bytes m sk t msg : sign_bytes m sk t pp' msg = sign_bytes m sk t pp msg.
Proof.
  unfold sign_bytes. pose proof Hu as (_ & -> & _). destruct (negb _); [reflexivity|]. destruct (negb _); [reflexivity|]. destruct (negb _); [reflexivity|].
  destruct (sample _ _ _) as [r|e|p]; [|reflexivity|reflexivity]. destruct (hash_msg_into_fr _ _ _) as [hm|e|p]; [|reflexivity|reflexivity]. cbn [bind].
  unfold sign_fr. destruct (negb _); [reflexivity|]. destruct (first_ssk sk) as [s|e|p]; [|reflexivity|reflexivity]. cbn [bind].
  unfold ssk_time_vec. pose proof Hu as (-> & -> & -> & _ & _).
  destruct (tv_init m (sk_t s) (pp_depth pp)) as [tv|e|p] eqn:Et; [|reflexivity|reflexivity]. cbn [bind].
  destruct (used_path m _ tv Et) as [_ Hl]. rewrite (used_nth 0) by lia. destruct (nth_res (pp_hlist pp) 0) as [h0|e|p]; [|reflexivity|reflexivity].
  cbn [bind]. rewrite used_poly by lia. rewrite used_nth by lia. reflexivity.
Qed.
Lemma used_validate_ssk m s pk : ssk_validate m s pk pp' = ssk_validate m s pk pp.
Proof.
  unfold ssk_validate. pose proof Hu as (-> & _ & -> & -> & _). destruct (tv_init m (sk_t s) (pp_depth pp)) as [tv|e|p] eqn:Et; [|reflexivity|reflexivity].
  destruct (used_path m _ tv Et) as [_ Hl]. rewrite used_nth by lia. destruct (nth_res (pp_hlist pp) 0) as [h0|e|p]; [|reflexivity|reflexivity].
  cbn [bind]. rewrite used_poly_mul by lia. reflexivity.
Qed.
Lemma used_validate m sk pk : sk_validate m sk pk pp' = sk_validate m sk pk pp.
Proof.
  unfold sk_validate. pose proof Hu as (-> & -> & _). destruct (_ || _); [reflexivity|].
  destruct (tv_init _ _ _) as [tv|e|p]; [|reflexivity|reflexivity]. destruct (gamma_list _ _ _) as [gl|e|p]; [|reflexivity|reflexivity].
  revert gl. induction (sec_ssk sk) as [|s l IH]; intros gl; [reflexivity|]. cbn [validate_loop]. rewrite used_validate_ssk.
  destruct (ssk_validate m s pk pp) as [b|e|p]; [|reflexivity|reflexivity]. cbn [bind]. destruct (negb b); [reflexivity|].
  destruct gl as [|t gl]; [reflexivity|]. destruct (negb _); [reflexivity|]. apply IH.
Qed.
Lemma used_key_gen seed : key_gen seed pp' = key_gen seed pp.
Proof.
  unfold key_gen. destruct (length seed <? 32)%nat; [reflexivity|].
  assert (master_key_gen seed pp' = master_key_gen seed pp) as ->. { unfold master_key_gen. pose proof Hu as (_ & -> & -> & -> & _). reflexivity. }
  destruct (master_key_gen seed pp) as [[[[pk0 msk] pop0] g]|e|p]; [|reflexivity|reflexivity]. cbn [bind].
  unfold pk_init, sk_init. pose proof Hu as (Hdd & -> & Hg & _ & Hf).
  destruct (if negb (valid_cs (pp_cs pp)) then _ else _) as [pk1|e|p]; [|reflexivity|reflexivity]. cbn [bind].
  destruct (negb (valid_cs (pp_cs pp))); [reflexivity|]. destruct (sample_then_update _ _ _) as [[r g']|e|p]; [|reflexivity|reflexivity]. cbn [bind].
  unfold ssk_init. rewrite (used_nth 0) by lia. rewrite Hdd, Hg, Hf. reflexivity.
Qed.
Lemma used_randomization m r s : fits (pp_depth pp) s -> randomization m pp' r s = randomization m pp r s.
Proof.
  intros Hf. unfold randomization, sbind, sget, slift, sput, ssk_time_vec. cbn [sk_t sk_g2r sk_hpoly sk_hvec]. pose proof Hu as (-> & _ & -> & _ & _).
  destruct (tv_init m (sk_t s) (pp_depth pp)) as [tv|e|p] eqn:Et; [|reflexivity|reflexivity].
  destruct (used_path m _ tv Et) as [Hn Hl]. specialize (Hf _ Hn). rewrite (used_nth 0) by lia. destruct (nth_res (pp_hlist pp) 0) as [h0|e|p]; [|reflexivity|reflexivity].
  rewrite used_poly by lia. destruct (poly_loop (pp_hlist pp) 0 (tv_vec tv) h0) as [q|e|p]; [|reflexivity|reflexivity].
  cbn [sk_t sk_g2r sk_hpoly sk_hvec]. rewrite used_hv by lia. reflexivity.
Qed.
End used.

(** * Update reads no more, for keys that fit *)
Lemma delegate_fits {E} m d t (s s1 : subkey E) : (d < 64)%nat -> fits d s -> delegate m t d s = (Ok tt, s1) -> fits d s1.
Proof.
  intros Hd Hf H. destruct (delegate_ok_below m d s t s1 Hd H) as [_ [Ht1 _]]. unfold delegate, sbind, sget, slift, sput in H.
  destruct (tv_init m (sk_t s) d) as [tv| |] eqn:E1; try discriminate.
  destruct (tv_init m t d) as [tv'| |] eqn:E2; try discriminate.
  destruct (tv_is_prefix tv tv') eqn:E3; cbn [negb] in H; [|discriminate].
  destruct (del_loop _ _ _) as [o hp] eqn:Ed. destruct o as [[]| |]; try discriminate. injection H as <-.
  destruct (tv_init_node m d _ tv Hd E1) as [Ht Hn]. destruct (tv_init_node m d _ tv' Hd E2) as [Ht' Hn'].
  intros v Hv. cbn [sk_t sk_hvec] in *. rewrite (node_at_fun _ _ _ _ Hv Hn'). rewrite skipn_length. pose proof (Hf _ Hn) as Hl.
  assert (Hdel : forall ts (hv : list (G1 E)) q q', del_loop hv ts q = (Ok tt, q') -> (length ts <= length hv)%nat).
  { induction ts as [|x ts IH]; intros hv q q' H; cbn [del_loop length] in *; [lia|]. destruct hv as [|h hv]; [discriminate|].
    cbn [length]. specialize (IH _ _ _ H). lia. }
  apply Hdel in Ed. rewrite skipn_length in Ed. cbn [sk_hvec] in Ed. pose proof (proj2 (node_at_turn _ _ _ Hn')) as Hl'.
  destruct tv as [t1 v1], tv' as [t2 v2]. cbn [tv_time tv_vec] in *. subst.
  destruct (proj1 (is_prefix_spec d _ v1 _ v2 Hn Hn') E3) as (v0 & w & _ & Hn0 & Hn1).
  pose proof (node_at_fun _ _ _ _ Hn0 Hn) as ->. pose proof (node_at_fun _ _ _ _ Hn1 Hn') as <-. rewrite app_length in *. lia.
Qed.

Section update.
Context {E : env} (pp pp' : pubparam E) (Hu : same_used pp pp') (Hd : (pp_depth pp < 64)%nat).
Lemma used_loop m old a : fits (pp_depth pp) a -> forall gl i rest g,
  update_loop m pp' old i gl (a :: rest) g = update_loop m pp old i gl (a :: rest) g.
Proof.
  intros Ha. induction gl as [|tv gl IH]; intros i rest g; [reflexivity|]. cbn [update_loop]. pose proof Hu as (Hdd & _). rewrite Hdd.
  destruct (dup_loop _ _ _ _) as [b|e|p]; [|reflexivity|reflexivity]. cbn [bind]. destruct b; [reflexivity|].
  cbn [nth_res nth_error bind]. unfold run_mut at 1 2. destruct (delegate m (tv_time tv) (pp_depth pp) a) as [[[]|e|p] s1] eqn:Ed; [|reflexivity|reflexivity].
  cbn [fst snd bind]. pose proof (delegate_fits m (pp_depth pp) _ a s1 Hd Ha Ed) as Hs1.
  assert (rerand_new m pp' old i s1 g = rerand_new m pp old i s1 g) as ->.
  { unfold rerand_new. destruct (i =? 0)%nat; [reflexivity|]. destruct (sample_then_update _ _ _) as [[r g']|e|p]; [|reflexivity|reflexivity]. cbn [bind].
    destruct (prng_eqb g' old); [reflexivity|]. unfold run_mut. rewrite (used_randomization pp pp' Hu Hd) by exact Hs1. reflexivity. }
  destruct (rerand_new m pp old i s1 g) as [[s2 g']|e|p]; [|reflexivity|reflexivity]. cbn [bind].
  unfold insert_at. destruct (i + 1 <=? length (a :: rest))%nat; [|reflexivity]. cbn [bind].
  rewrite Nat.add_1_r. cbn [firstn skipn app]. apply IH.
Qed.
Lemma used_update m t seed sk : Forall (fits (pp_depth pp)) (sec_ssk sk) -> update m pp' t seed sk = update m pp t seed sk.
Proof.
  intros Hf. unfold update, sbind, sget, slift, sput. pose proof Hu as (Hdd & Hc & _). rewrite Hdd, Hc.
  destruct (negb _); [reflexivity|]. destruct (shl64 _ _) as [p|e|q]; [|reflexivity|reflexivity].
  destruct (sub64 _ _ _) as [mx|e|q]; [|reflexivity|reflexivity]. destruct (_ || _); [reflexivity|].
  destruct (find_ancestor _ _) as [dt|e|q]; [|reflexivity|reflexivity].
  destruct (rerandomize _ _ _ _) as [g|e|q]; [|reflexivity|reflexivity].
  destruct (drop_until dt (sec_ssk sk)) as [l|e|q] eqn:El; [|reflexivity|reflexivity].
  destruct l as [|a rest]; [reflexivity|]. destruct (dt =? t); [reflexivity|].
  destruct (tv_init _ _ _) as [tv|e|q]; [|reflexivity|reflexivity]. destruct (gamma_list _ _ _) as [gl|e|q]; [|reflexivity|reflexivity].
  rewrite used_loop; [reflexivity|].
  revert El Hf. clear. induction (sec_ssk sk) as [|s l IH]; intros El Hf; [discriminate|]. cbn [drop_until] in El. destruct (sk_t s =? dt).
  - injection El as <- <-. exact (Forall_inv Hf).
  - exact (IH El (Forall_inv_tail Hf)).
Qed.
Lemma used_step m o sk : Forall (fits (pp_depth pp)) (sec_ssk sk) -> step m pp' o sk = step m pp o sk.
Proof.
  intros Hf. assert (Hs : forall m k t msg, sign_bytes m k t pp' msg = sign_bytes m k t pp msg) by (intros; apply (used_sign_bytes pp pp' Hu Hd)).
  destruct o as [t seed|t msg seed|t msg|t msg seed|c]; cbn [step]; [| | | |reflexivity]; unfold sbind at 1 2.
  - rewrite used_update by exact Hf. reflexivity.
  - assert (sign m t pp' msg seed sk = sign m t pp msg seed sk) as ->; [|reflexivity].
    unfold sign, sbind, sget, slift. destruct (t <? sec_time sk); [reflexivity|]. destruct (sec_time sk <? t); [rewrite used_update by exact Hf|].
    + destruct (update m pp t seed sk) as [[[]|e|p] sk1]; [|reflexivity|reflexivity]. rewrite Hs. reflexivity.
    + cbn [sret]. rewrite Hs. reflexivity.
  - assert (sign_present m t pp' msg sk = sign_present m t pp msg sk) as ->; [|reflexivity].
    unfold sign_present, sbind, sget, slift. rewrite Hs. reflexivity.
  - assert (sign_then_update m t pp' msg seed sk = sign_then_update m t pp msg seed sk) as ->; [|reflexivity].
    unfold sign_then_update, sbind, sget, slift. rewrite Hs. destruct (negb _); [reflexivity|].
    destruct (sign_bytes m sk t pp msg) as [s|e|p]; [|reflexivity|reflexivity]. destruct (add64 m t 1) as [t1|e|p]; [|reflexivity|reflexivity].
    rewrite used_update by exact Hf. reflexivity.
Qed.
End update.
Lemma good_fits {E} (pp : pubparam E) x sk : pp_ok pp -> good_sk pp x sk -> Forall (fits (pp_depth pp)) (sec_ssk sk).
Proof.
  intros Hpp Hg. pose proof (good_shape pp x sk Hpp Hg) as Hs. eapply Forall_impl; [|exact (shs_ssk pp sk Hs)].
  intros s (v & Hn & Hl) v' Hv'. rewrite (node_at_fun _ _ _ _ Hv' Hn). pose proof (proj2 (node_at_turn _ _ _ Hn)). lia.
Qed.

(** * Statements: spare generators *)
Lemma spare_calls : forall (E : env) m (pp pp' : pubparam E) s pk pks sk t msg seed, same_used pp pp' -> (pp_depth pp < 64)%nat ->
  key_gen seed pp' = key_gen seed pp
  /\ sign_present m t pp' msg sk = sign_present m t pp msg sk
  /\ verify m s pk pp' msg = verify m s pk pp msg
  /\ verify_aggregated m s pks pp' msg = verify_aggregated m s pks pp msg
  /\ sk_validate m sk pk pp' = sk_validate m sk pk pp.
Proof.
  intros E m pp pp' s pk pks sk t msg seed Hu Hd. split; [apply used_key_gen; assumption|]. split.
  { unfold sign_present, sbind, sget, slift. rewrite (used_sign_bytes pp pp' Hu Hd). reflexivity. }
  split; [apply used_verify; assumption|]. split; [apply used_verify_agg; assumption|apply used_validate; assumption].
Qed.
Lemma spare_steps : forall (E : env) m (pp pp' : pubparam E) o sk, same_used pp pp' -> (pp_depth pp < 64)%nat ->
  Forall (fits (pp_depth pp)) (sec_ssk sk) -> step m pp' o sk = step m pp o sk.
Proof. intros E m pp pp' o sk Hu Hd Hf. apply used_step; assumption. Qed.
Lemma spare_run : forall (E : env) (L : env_laws E) m m' (pp pp' : pubparam E) pk sk ops, pp_ok pp -> same_used pp pp' -> reachable m pp pk sk ->
  run m' pp' ops sk = run m' pp ops sk.
Proof.
  intros E L m m' pp pp' pk sk ops Hpp Hu Hr. destruct (reachable_good L m pp pk sk Hpp Hr) as (x & _ & _ & Hg & Hcs). clear Hr.
  pose proof (ppo_depth pp Hpp) as Hd. revert sk Hg. induction ops as [|o ops IH]; intros sk Hg; [reflexivity|]. cbn [run].
  rewrite (used_step pp pp' Hu ltac:(lia) m' o sk) by exact (good_fits pp x sk Hpp Hg).
  pose proof (step_good L m' pp x o sk Hpp Hcs Hg) as [Hg' _]. destruct (step m' pp o sk) as [r sk1]. cbn [snd] in Hg'. rewrite (IH sk1 Hg'). reflexivity.
Qed.
Lemma spare_reachable : forall (E : env) (L : env_laws E) m (pp pp' : pubparam E) pk sk, pp_ok pp -> same_used pp pp' ->
  (reachable m pp' pk sk <-> reachable m pp pk sk).
Proof.
  intros E L m pp pp' pk sk Hpp Hu. pose proof (ppo_depth pp Hpp) as Hd.
  assert (Hrun : forall seed k0 pop ops, key_gen seed pp = Ok (pk, k0, pop) -> run m pp' ops k0 = run m pp ops k0).
  { intros seed k0 pop ops Hk. apply (spare_run E L m m pp pp' pk k0 ops Hpp Hu). exists seed, k0, pop, []. split; [exact Hk|reflexivity]. }
  split; intros (seed & k0 & pop & ops & Hk & H); exists seed, k0, pop, ops.
  - rewrite (used_key_gen pp pp' Hu ltac:(lia)) in Hk. split; [exact Hk|]. rewrite <- (Hrun _ _ _ ops Hk). exact H.
  - split; [rewrite (used_key_gen pp pp' Hu ltac:(lia)); exact Hk|]. rewrite (Hrun _ _ _ ops Hk). exact H.
Qed.

(** * Statements: too few generators *)
Lemma poly_ends {E : env} (l : list (G1 E)) : forall v i acc,
  (exists a, poly_loop l i v acc = Ok a) \/ (poly_loop l i v acc = Panic P_INDEX /\ (length l <= i + length v)%nat).
Proof.
  induction v as [|x v IH]; intros i acc; [left; eexists; reflexivity|]. cbn [poly_loop length]. unfold nth_res.
  destruct (nth_error l (i + 1)) as [h|] eqn:En.
  - cbn [bind]. destruct (IH (S i) (g1_add acc (if x =? 2 then g1_dbl h else h))) as [H|[H Hl]]; [left; exact H|right]. split; [exact H|lia].
  - right. split; [reflexivity|]. apply nth_error_None in En. lia.
Qed.
Lemma nth_ends {A} (l : list A) i : (exists a, nth_res l i = Ok a /\ (i < length l)%nat) \/ (nth_res l i = Panic P_INDEX /\ (length l <= i)%nat).
Proof.
  unfold nth_res. destruct (nth_error l i) as [a|] eqn:En; [left; exists a; split; [reflexivity|]|right; split; [reflexivity|]].
  - apply nth_error_Some. congruence.
  - apply nth_error_None. exact En.
Qed.
Lemma tv_ends m d t : (d < 64)%nat ->
  (exists v, tv_init m t d = Ok (TimeVec t v) /\ node_at d t v /\ 1 <= t <= last_time d)
  \/ (exists e, tv_init m t d = Err e /\ ~ 1 <= t <= last_time d).
Proof.
  intros Hd. destruct (N.leb_spec 1 t) as [H1|H1]; [destruct (N.leb_spec t (last_time d)) as [H2|H2]|].
  - left. destruct (tv_init_ex m d t Hd (conj H1 H2)) as (v & Hn & Ht). exists v. auto.
  - right. eexists. split; [apply tv_init_err; [exact Hd|lia]|lia].
  - right. eexists. split; [apply tv_init_err; [exact Hd|lia]|lia].
Qed.
Lemma few_verify : forall (E : env) (L : env_laws E) m s pk (pp : pubparam E) msg, (pp_depth pp < 64)%nat ->
  (forall e, verify m s pk pp msg <> Err e)
  /\ forall p, verify m s pk pp msg = Panic p <->
     p = P_INDEX /\ (pp_cs pp = 0 \/ pp_cs pp = 1) /\ sig_cs s = pp_cs pp /\ g2_insub (sig_1 s) = true /\ g1_insub (sig_2 s) = true
     /\ (pp_hlist pp = [] \/ too_few pp /\ 1 <= sig_time s <= last_time (pp_depth pp)).
Proof.
  intros E L m s pk pp msg Hd. setoid_rewrite <- valid_cs_iff. unfold verify. destruct (valid_cs (pp_cs pp)); cbn [negb].
  2:{ split; [discriminate|]. intros p. split; [discriminate|]. intros (_ & H & _). discriminate. }
  destruct (N.eqb_spec (sig_cs s) (pp_cs pp)) as [Hs|Hs]; cbn [negb].
  2:{ split; [discriminate|]. intros p. split; [discriminate|]. intros (_ & _ & H & _). contradiction. }
  rewrite (hash_msg_spec L). cbn [bind]. unfold verify_fr.
  destruct (g2_insub (sig_1 s)); cbn [negb orb]. 2:{ split; [discriminate|]. intros p. split; [discriminate|]. intros (_ & _ & _ & H & _). discriminate. }
  destruct (g1_insub (sig_2 s)); cbn [negb orb]. 2:{ split; [discriminate|]. intros p. split; [discriminate|]. intros (_ & _ & _ & _ & H & _). discriminate. }
  destruct (nth_ends (pp_hlist pp) 0) as [(h0 & -> & Hl)|[-> Hl]]; cbn [bind].
  2:{ split; [discriminate|]. intros p. split; [|intros (-> & _); reflexivity]. intros H. injection H as <-. do 5 (split; [reflexivity||exact Hs|]).
      left. destruct (pp_hlist pp); [reflexivity|cbn in Hl; lia]. }
  destruct (tv_ends m (pp_depth pp) (sig_time s) Hd) as [(v & -> & Hn & Ht)|(e & -> & Ht)].
  2:{ split; [discriminate|]. intros p. split; [discriminate|]. intros (_ & _ & _ & _ & _ & [H|[_ H]]); [rewrite H in Hl; cbn in Hl; lia|contradiction]. }
  cbn [tv_vec]. pose proof (proj2 (node_at_turn _ _ _ Hn)) as Hv. unfold too_few.
  destruct (poly_ends (pp_hlist pp) v 0 h0) as [[a ->]|[-> Hp]]; cbn [bind].
  - destruct (nth_ends (pp_hlist pp) (pp_depth pp)) as [(hd & -> & Hh)|[-> Hh]]; cbn [bind].
    + split; [discriminate|]. intros p. split; [discriminate|]. intros (_ & _ & _ & _ & _ & [H|[H _]]); [rewrite H in Hl; cbn in Hl; lia|lia].
    + split; [discriminate|]. intros p. split; [|intros (-> & _); reflexivity]. intros H. injection H as <-. do 5 (split; [reflexivity||exact Hs|]). right. split; assumption.
  - split; [discriminate|]. intros p. split; [|intros (-> & _); reflexivity]. intros H. injection H as <-. do 5 (split; [reflexivity||exact Hs|]). right. split; [lia|assumption].
Qed.
Lemma few_accepts : forall (E : env) m s pk pks (pp : pubparam E) msg, too_few pp ->
  verify m s pk pp msg <> Ok true /\ verify_aggregated m s pks pp msg <> Ok true.
Proof.
  intros E m s pk pks pp msg Hf. assert (H : forall k, verify m s k pp msg <> Ok true).
  { intros k. unfold verify. destruct (negb _); [discriminate|]. destruct (negb _); [discriminate|]. destruct (hash_msg_into_fr _ _ _); cbn [bind]; [|discriminate|discriminate].
    unfold verify_fr. destruct (_ || _); [discriminate|]. destruct (nth_res _ 0); cbn [bind]; [|discriminate|discriminate].
    destruct (tv_init _ _ _) as [tv| |]; [|discriminate|discriminate]. destruct (poly_loop _ _ _ _); cbn [bind]; [|discriminate|discriminate].
    destruct (nth_ends (pp_hlist pp) (pp_depth pp)) as [(hd & _ & Hh)|[-> _]]; [unfold too_few in Hf; lia|discriminate]. }
  split; [apply H|]. unfold verify_aggregated. destruct (negb _); [discriminate|]. destruct (negb _); [discriminate|]. destruct pks; [discriminate|apply H].
Qed.
Lemma few_sign_bytes {E} m (pp : pubparam E) sk t msg s : too_few pp -> sign_bytes m sk t pp msg <> Ok s.
Proof.
  intros Hf. unfold sign_bytes. destruct (negb _); [discriminate|]. destruct (negb _); [discriminate|]. destruct (negb _); [discriminate|].
  destruct (sample _ _ _); cbn [bind]; [|discriminate|discriminate]. destruct (hash_msg_into_fr _ _ _); cbn [bind]; [|discriminate|discriminate].
  unfold sign_fr. destruct (negb _); [discriminate|]. destruct (first_ssk sk); cbn [bind]; [|discriminate|discriminate].
  destruct (ssk_time_vec _ _ _); cbn [bind]; [|discriminate|discriminate]. destruct (nth_res _ 0); cbn [bind]; [|discriminate|discriminate].
  destruct (poly_loop _ _ _ _); cbn [bind]; [|discriminate|discriminate].
  destruct (nth_ends (pp_hlist pp) (pp_depth pp)) as [(hd & _ & Hh)|[-> _]]; [unfold too_few in Hf; lia|discriminate].
Qed.
Lemma few_signs : forall (E : env) m (pp : pubparam E) o sk s, too_few pp -> fst (step m pp o sk) <> Ok (Some s).
Proof.
  intros E m pp o sk s Hf. destruct o as [t seed|t msg seed|t msg|t msg seed|c]; cbn [step]; unfold sbind at 1.
  - destruct (update m pp t seed sk) as [[| |] k]; discriminate.
  - destruct (sign m t pp msg seed sk) as [[s0| |] k] eqn:Es; [|discriminate|discriminate]. exfalso. unfold sign, sbind, sget, slift in Es.
    destruct (t <? sec_time sk); [discriminate|].
    destruct (if sec_time sk <? t then _ else _) as [[[]| |] k1]; [|discriminate|discriminate]. injection Es as Es _. exact (few_sign_bytes _ _ _ _ _ _ Hf Es).
  - destruct (sign_present m t pp msg sk) as [[s0| |] k] eqn:Es; [|discriminate|discriminate]. exfalso. unfold sign_present, sbind, sget, slift in Es.
    destruct (negb _); [discriminate|]. injection Es as Es _. exact (few_sign_bytes _ _ _ _ _ _ Hf Es).
  - destruct (sign_then_update m t pp msg seed sk) as [[s0| |] k] eqn:Es; [|discriminate|discriminate]. exfalso. unfold sign_then_update, sbind, sget, slift in Es.
    destruct (negb _); [discriminate|]. destruct (sign_bytes m sk t pp msg) as [p| |] eqn:Eb; [|discriminate|discriminate]. exact (few_sign_bytes _ _ _ _ _ _ Hf Eb).
  - destruct (reload c sk) as [[| |] k]; discriminate.
Qed.
Lemma few_sign_panics : forall (E : env) (L : env_laws E) m (pp : pubparam E) sk t msg, (pp_depth pp < 64)%nat ->
  forall p, fst (sign_present m t pp msg sk) = Panic p <->
     p = P_INDEX /\ too_few pp /\ (pp_cs pp = 0 \/ pp_cs pp = 1) /\ sec_cs sk = pp_cs pp /\ sec_time sk = t
     /\ exists ssk rest, sec_ssk sk = ssk :: rest /\ 1 <= sk_t ssk <= last_time (pp_depth pp).
Proof.
  intros E L m pp sk t msg Hd p. rewrite <- valid_cs_iff. unfold sign_present, sbind, sget, slift, sign_bytes.
  destruct (N.eqb_spec (sec_time sk) t) as [Ht|Ht]; cbn [negb fst]. 2:{ split; [discriminate|]. intros (_ & _ & _ & _ & H & _). contradiction. }
  destruct (valid_cs (pp_cs pp)); cbn [negb]. 2:{ split; [discriminate|]. intros (_ & _ & H & _). discriminate. }
  destruct (N.eqb_spec (sec_cs sk) (pp_cs pp)) as [Hc|Hc]; cbn [negb]. 2:{ split; [discriminate|]. intros (_ & _ & _ & H & _). contradiction. }
  rewrite sample_spec by exact (hash_len_env L). rewrite (hash_msg_spec L). cbn [bind]. unfold sign_fr. replace (sec_time sk =? t) with true by lia. cbn [negb].
  unfold first_ssk. destruct (sec_ssk sk) as [|a rest] eqn:Ea; cbn [bind]. { split; [discriminate|]. intros (_ & _ & _ & _ & _ & s & r & H & _). discriminate. }
  unfold ssk_time_vec. destruct (tv_ends m (pp_depth pp) (sk_t a) Hd) as [(v & -> & Hn & Hr)|(e & -> & Hr)]; cbn [bind].
  2:{ split; [discriminate|]. intros (_ & _ & _ & _ & _ & s & r & H & Hr'). injection H as <- <-. contradiction. }
  assert (Hyes : too_few pp -> P_INDEX = P_INDEX /\ too_few pp /\ true = true /\ sec_cs sk = pp_cs pp /\ sec_time sk = t
     /\ exists ssk rest', a :: rest = ssk :: rest' /\ 1 <= sk_t ssk <= last_time (pp_depth pp)).
  { intros Hf. split; [reflexivity|]. split; [exact Hf|]. split; [reflexivity|]. split; [exact Hc|]. split; [exact Ht|]. exists a, rest. split; [reflexivity|exact Hr]. }
  pose proof (proj2 (node_at_turn _ _ _ Hn)) as Hv. cbn [tv_vec]. unfold too_few in *.
  destruct (nth_ends (pp_hlist pp) 0) as [(h0 & -> & Hl)|[-> Hl]]; cbn [bind].
  2:{ split; [|intros (-> & _); reflexivity]. intros H. injection H as <-. apply Hyes. lia. }
  destruct (poly_ends (pp_hlist pp) v 0 h0) as [[q ->]|[-> Hp]]; cbn [bind].
  2:{ split; [|intros (-> & _); reflexivity]. intros H. injection H as <-. apply Hyes. lia. }
  destruct (nth_ends (pp_hlist pp) (pp_depth pp)) as [(hd & -> & Hh)|[-> Hh]]; cbn [bind].
  2:{ split; [|intros (-> & _); reflexivity]. intros H. injection H as <-. apply Hyes. lia. }
  split; [|intros (_ & H & _); lia]. intros H. exfalso. revert H. unfold last_hvector_coeff. destruct (sk_hvec a) as [|x hv] eqn:Eh; [discriminate|].
  destruct (nth_ends (x :: hv) (length (x :: hv) - 1)) as [(y & -> & _)|[_ Hy]]; [discriminate|cbn in Hy; lia].
Qed.
Lemma few_key_gen : forall (E : env) (L : env_laws E) (pp : pubparam E) seed,
  (forall p, key_gen seed pp = Panic p <-> p = P_INDEX /\ (32 <= length seed)%nat /\ (pp_cs pp = 0 \/ pp_cs pp = 1) /\ pp_hlist pp = [])
  /\ forall pk sk pop, key_gen seed pp = Ok (pk, sk, pop) ->
     exists s, sec_ssk sk = [s] /\ length (sk_hvec s) = Nat.min (pp_depth pp) (length (pp_hlist pp) - 1).
Proof.
  intros E L pp seed. setoid_rewrite <- valid_cs_iff. destruct (Nat.lt_ge_cases (length seed) 32) as [Hs|Hs].
  { rewrite key_gen_short by exact Hs. split; [|discriminate]. intros p. split; [discriminate|]. intros (_ & H & _). lia. }
  destruct (valid_cs (pp_cs pp)) eqn:Hc.
  2:{ rewrite key_gen_bad_cs by assumption. split; [|discriminate]. intros p. split; [discriminate|]. intros (_ & _ & H & _). discriminate. }
  destruct (pp_hlist pp) as [|h0 hs] eqn:Eh.
  - assert (key_gen seed pp = Panic P_INDEX) as ->.
    { unfold key_gen. replace (length seed <? 32)%nat with false by lia.
      rewrite (master_key_gen_spec L) by auto. cbn [bind]. unfold pk_init, sk_init. rewrite Hc. cbn [negb bind].
      rewrite sample_then_update_spec by apply (hash_len_env L). cbn [bind]. unfold ssk_init. rewrite Eh. reflexivity. }
    split; [|discriminate]. intros p. split; [intros H; injection H as <-; auto|intros (-> & _); reflexivity].
  - destruct (key_gen_head L pp seed h0 hs Hs Hc Eh) as (s & -> & Hi). split.
    + intros p. split; [discriminate|]. intros (_ & _ & _ & H). discriminate.
    + intros pk sk pop H. injection H as <- <- <-. exists s. split; [reflexivity|]. unfold ssk_init in Hi. rewrite Eh in Hi. cbn [nth_res nth_error bind] in Hi.
      injection Hi as <-. cbn [sk_hvec]. rewrite Nat.add_1_r. cbn [firstn skipn]. rewrite map_length, firstn_length. cbn [length]. lia.
Qed.
Lemma few_unnoticed : forall (E : env) (L : env_laws E) (pp : pubparam E) m seed msg, (1 <= pp_depth pp < 64)%nat -> too_few pp -> pp_hlist pp <> [] ->
  (32 <= length seed)%nat -> pp_cs pp = 0 \/ pp_cs pp = 1 ->
  exists pk sk pop, key_gen seed pp = Ok (pk, sk, pop) /\ fst (sign_present m 1 pp msg sk) = Panic P_INDEX.
Proof.
  intros E L pp m seed msg Hd Hf Hh Hs Hc. destruct (pp_hlist pp) as [|h0 hs] eqn:Eh; [contradiction|].
  pose proof (proj2 (valid_cs_iff _) Hc) as Hc'. destruct (key_gen_head L pp seed h0 hs Hs Hc' Eh) as (s & Hk & Hi).
  eexists _, _, _. split; [exact Hk|]. apply (few_sign_panics E L); [lia|]. cbn [sec_cs sec_time sec_ssk]. do 5 (split; [reflexivity||assumption|]).
  exists s, []. split; [reflexivity|]. unfold ssk_init in Hi. rewrite Eh in Hi. cbn [nth_res nth_error bind] in Hi. injection Hi as <-. cbn [sk_t].
  unfold last_time. pose proof (pow2_le 1 (pp_depth pp) ltac:(lia)). change (pow2 1) with 2 in *. lia.
Qed.

(** * Keys that do not fit, and witnesses *)
Definition long_key : seckey toy :=
  SecKey (pp_cs tpp4) 1 [SubKey 1 (@g2_zero toy) (@g1_zero toy) (repeat (@g1_zero toy) 5)] (repeat 0 64).
Definition tpp4x : pubparam toy :=
  PubParam (pp_depth tpp4) (pp_cs tpp4) (pp_g2 tpp4) (pp_h tpp4) (pp_hlist tpp4 ++ [@g1_zero toy]).
Definition tpp4s : pubparam toy :=
  PubParam (pp_depth tpp4) (pp_cs tpp4) (pp_g2 tpp4) (pp_h tpp4) (firstn 3 (pp_hlist tpp4)).
Lemma tpp4x_used : same_used tpp4 tpp4x.
Proof.
  split; [reflexivity|]. split; [reflexivity|]. split; [reflexivity|]. split; [reflexivity|].
  unfold tpp4x. cbn [pp_hlist]. rewrite firstn_app. replace (pp_depth tpp4 + 1 - length (pp_hlist tpp4))%nat with 0%nat by reflexivity.
  cbn [firstn]. apply app_nil_r.
Qed.
Lemma tpp4s_few : too_few tpp4s.
Proof. unfold too_few, tpp4s. cbn [pp_hlist pp_depth]. rewrite firstn_length. change (pp_depth tpp4) with 4%nat. lia. Qed.
Definition differ (a b : res unit) : bool := match a, b with Panic P_INDEX, Ok tt => true | _, _ => false end.
Lemma differ_eq a b : differ a b = true -> a = Panic P_INDEX /\ b = Ok tt.
Proof. destruct a as [|e|[]]; try discriminate. destruct b as [[]|e|p]; try discriminate. split; reflexivity. Qed.
Lemma long_outcomes : differ (fst (update Debug tpp4 2 [] long_key)) (fst (update Debug tpp4x 2 [] long_key)) = true.
Proof. vm_cast_no_check (@eq_refl bool true). Qed.
Lemma spare_any_key_refuted : exists (E : env) (pp pp' : pubparam E) t seed sk, env_laws E /\ pp_ok pp /\ same_used pp pp'
  /\ fst (update Debug pp t seed sk) = Panic P_INDEX /\ fst (update Debug pp' t seed sk) = Ok tt.
Proof.
  exists toy, tpp4, tpp4x, 2, [], long_key. split; [exact toy_laws|]. split; [exact tpp4_ok|]. split; [exact tpp4x_used|].
  exact (differ_eq _ _ long_outcomes).
Qed.
