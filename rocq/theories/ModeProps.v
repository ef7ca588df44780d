(** Lemmas behind C66: nothing the code computes depends on whether overflow is checked. *)
From Verif Require Import Base Env Time SpecTime TimeFacts Hkdf Prng SubKey SecretKey Keys Sig IO Serdes Api SpecKey
  SpecUpdate UpdateFacts KeyFacts HistoryFacts KeyProps.
From Coq Require Import ZifyBool ZifyNat ZifyN.
Local Open Scope N_scope.
Local Arguments pow2 : simpl never.

Lemma tv_init_mode m m' t d : (d < 64)%nat -> tv_init m t d = tv_init m' t d.
Proof.
  intros Hd. destruct (N.le_gt_cases 1 t), (N.le_gt_cases t (last_time d)).
  2-4: rewrite !tv_init_err by lia; reflexivity.
  destruct (tv_init_ex m d t Hd ltac:(lia)) as (v & Hn & ->). symmetry. apply tv_init_ok; assumption.
Qed.
Lemma gamma_loop_mode m m' d : forall rest pre acc,
  (d < 64)%nat -> valid_path d (pre ++ rest) -> gamma_loop m d pre rest acc = gamma_loop m' d pre rest acc.
Proof.
  induction rest as [|x rest IH]; intros pre acc Hd Hv; [reflexivity|]. cbn [gamma_loop].
  assert (Hv' : valid_path d ((pre ++ [x]) ++ rest)) by (rewrite <- app_assoc; exact Hv).
  destruct (x =? 1) eqn:Ex.
  - assert (H2 : valid_path d (pre ++ [2])).
    { destruct Hv as [Hf Hl]. apply Forall_app in Hf as [Hf _]. rewrite app_length in Hl. cbn [length] in Hl. split.
      - apply Forall_app. split; [exact Hf|]. constructor; [right; reflexivity|constructor].
      - rewrite app_length. cbn [length]. lia. }
    rewrite !(vec_to_time_ptime _ d _ Hd H2). cbn [bind]. destruct (insert_at 1 _ acc); cbn [bind]; auto.
  - cbn [bind]. auto.
Qed.
Lemma gamma_list_mode m m' d t tv :
  (d < 64)%nat -> tv_init m t d = Ok tv -> gamma_list m tv d = gamma_list m' tv d.
Proof.
  intros Hd H. destruct (tv_init_node m d t tv Hd H) as [_ Hn]. apply node_at_ptime in Hn as [Hv _].
  apply gamma_loop_mode; assumption.
Qed.

Lemma delegate_mode {E} m m' t d (s : subkey E) : (d < 64)%nat -> delegate m t d s = delegate m' t d s.
Proof.
  intros Hd. unfold delegate, sbind, sget, slift. rewrite (tv_init_mode m m' (sk_t s) d Hd), (tv_init_mode m m' t d Hd).
  reflexivity.
Qed.
Lemma randomization_mode {E} m m' (pp : pubparam E) r s :
  (pp_depth pp < 64)%nat -> randomization m pp r s = randomization m' pp r s.
Proof.
  intros Hd. unfold randomization, sbind, sget, slift, sput, ssk_time_vec. cbn [sk_t].
  rewrite (tv_init_mode m m' (sk_t s) _ Hd). reflexivity.
Qed.
Lemma dup_loop_mode {E} m m' d tv : forall l : list (subkey E), (d < 64)%nat -> dup_loop m d tv l = dup_loop m' d tv l.
Proof.
  induction l as [|s l IH]; intros Hd; [reflexivity|]. cbn [dup_loop]. unfold ssk_time_vec.
  rewrite (tv_init_mode m m' (sk_t s) d Hd), IH by exact Hd. reflexivity.
Qed.
Lemma update_loop_mode {E} m m' (pp : pubparam E) old : forall gl i ssk g,
  (pp_depth pp < 64)%nat -> update_loop m pp old i gl ssk g = update_loop m' pp old i gl ssk g.
Proof.
  induction gl as [|tv gl IH]; intros i ssk g Hd; [reflexivity|]. cbn [update_loop].
  rewrite (dup_loop_mode m m') by exact Hd. destruct (dup_loop m' _ tv _) as [[|]| |]; cbn [bind]; try reflexivity.
  destruct (nth_res ssk 0) as [s0| |]; cbn [bind]; try reflexivity.
  assert (Hdel : run_mut (delegate m (tv_time tv) (pp_depth pp)) s0 = run_mut (delegate m' (tv_time tv) (pp_depth pp)) s0)
    by (unfold run_mut; rewrite (delegate_mode m m') by exact Hd; reflexivity).
  rewrite Hdel. destruct (run_mut (delegate m' _ _) s0) as [s1| |]; cbn [bind]; try reflexivity.
  assert (Hr : rerand_new m pp old i s1 g = rerand_new m' pp old i s1 g).
  { unfold rerand_new. destruct (i =? 0)%nat; [reflexivity|]. destruct (sample_then_update _ g _) as [[r g']| |]; cbn [bind]; try reflexivity.
    destruct (prng_eqb g' old); [reflexivity|]. unfold run_mut. rewrite (randomization_mode m m') by exact Hd. reflexivity. }
  rewrite Hr. destruct (rerand_new m' pp old i s1 g) as [[s2 g']| |]; cbn [bind]; try reflexivity.
  destruct (insert_at (i + 1) s2 ssk) as [ssk'| |]; cbn [bind]; auto.
Qed.

Lemma update_mode : forall (E : env) m m' (pp : pubparam E) t seed sk,
  (pp_depth pp < 64)%nat -> update m pp t seed sk = update m' pp t seed sk.
Proof.
  intros E m m' pp t seed sk Hd. unfold update, sbind, sget, slift, sput.
  destruct (negb (sec_cs sk =? pp_cs pp)); [reflexivity|]. rewrite !shl64_ok by exact Hd.
  assert (Hs : forall k, sub64 k (pow2 (pp_depth pp)) 1 = Ok (pow2 (pp_depth pp) - 1)).
  { intros k. unfold sub64. pose proof (pow2_pos (pp_depth pp)). replace (1 <=? pow2 (pp_depth pp)) with true by lia. reflexivity. }
  rewrite !Hs. destruct ((t <=? sec_time sk) || _); [reflexivity|].
  destruct (find_ancestor sk t) as [dt| |]; try reflexivity. destruct (rerandomize _ _ _ _) as [g| |]; try reflexivity.
  destruct (drop_until dt (sec_ssk sk)) as [[|s ssk]| |]; try reflexivity. destruct (dt =? t); [reflexivity|].
  rewrite (tv_init_mode m m') by exact Hd. destruct (tv_init m' t (pp_depth pp)) as [tv| |] eqn:Et; try reflexivity.
  rewrite (gamma_list_mode m' m _ t) by assumption. destruct (gamma_list m tv (pp_depth pp)) as [gl| |]; try reflexivity.
  rewrite (update_loop_mode m m') by exact Hd. reflexivity.
Qed.

Lemma sign_bytes_mode {E} m m' (sk : seckey E) t pp msg :
  (pp_depth pp < 64)%nat -> sign_bytes m sk t pp msg = sign_bytes m' sk t pp msg.
Proof.
  intros Hd. unfold sign_bytes. destruct (negb (valid_cs _)); [reflexivity|]. destruct (negb (sec_cs sk =? _)); [reflexivity|].
  destruct (negb _); [reflexivity|]. destruct (sample _ _ _); cbn [bind]; try reflexivity.
  destruct (hash_msg_into_fr _ _ _); cbn [bind]; try reflexivity. unfold sign_fr. destruct (negb _); [reflexivity|].
  destruct (first_ssk sk) as [s| |]; cbn [bind]; try reflexivity. unfold ssk_time_vec.
  rewrite (tv_init_mode m m') by exact Hd. reflexivity.
Qed.

Lemma calls_mode : forall (E : env) m m' (pp : pubparam E) o sk,
  (pp_depth pp < 64)%nat -> sec_time sk < 18446744073709551615 -> step m pp o sk = step m' pp o sk.
Proof.
  intros E m m' pp o sk Hd Ht. destruct o as [t seed|t msg seed|t msg|t msg seed|c]; cbn [step]; unfold sbind.
  - rewrite (update_mode E m m') by exact Hd. reflexivity.
  - unfold sign, sbind, sget, slift, sret. destruct (t <? sec_time sk); [reflexivity|].
    destruct (sec_time sk <? t).
    + rewrite (update_mode E m m') by exact Hd. destruct (update m' pp t seed sk) as [[[]| |] sk']; try reflexivity.
      rewrite (sign_bytes_mode m m') by exact Hd. reflexivity.
    + rewrite (sign_bytes_mode m m') by exact Hd. reflexivity.
  - unfold sign_present, sbind, sget, slift. rewrite (sign_bytes_mode m m') by exact Hd. reflexivity.
  - unfold sign_then_update, sbind, sget, slift, sret. destruct (sec_time sk =? t) eqn:Et; cbn [negb]; [|reflexivity].
    rewrite (sign_bytes_mode m m') by exact Hd. destruct (sign_bytes m' sk t pp msg) as [p| |]; try reflexivity.
    assert (Ha : forall k, add64 k t 1 = Ok (t + 1)).
    { intros k. unfold add64, two64. replace (t + 1 <? 18446744073709551616) with true by lia. reflexivity. }
    rewrite !Ha, (update_mode E m m') by exact Hd. reflexivity.
  - reflexivity.
Qed.

Lemma verify_fr_mode {E} m m' (s : signature E) pk pp M :
  (pp_depth pp < 64)%nat -> verify_fr m s pk pp M = verify_fr m' s pk pp M.
Proof. intros Hd. unfold verify_fr. rewrite (tv_init_mode m m') by exact Hd. reflexivity. Qed.
Lemma ssk_validate_mode {E} m m' (s : subkey E) pk pp :
  (pp_depth pp < 64)%nat -> ssk_validate m s pk pp = ssk_validate m' s pk pp.
Proof. intros Hd. unfold ssk_validate. rewrite (tv_init_mode m m') by exact Hd. reflexivity. Qed.

Lemma checks_mode : forall (E : env) m m' (pp : pubparam E) s pk pks sk msg,
  (pp_depth pp < 64)%nat ->
  verify m s pk pp msg = verify m' s pk pp msg
  /\ verify_aggregated m s pks pp msg = verify_aggregated m' s pks pp msg
  /\ sk_validate m sk pk pp = sk_validate m' sk pk pp.
Proof.
  intros E m m' pp s pk pks sk msg Hd.
  assert (Hv : forall k, verify m s k pp msg = verify m' s k pp msg).
  { intros k. unfold verify. destruct (negb (valid_cs _)); [reflexivity|]. destruct (negb _); [reflexivity|].
    destruct (hash_msg_into_fr _ _ _); cbn [bind]; try reflexivity. apply verify_fr_mode, Hd. }
  split; [apply Hv|]. split.
  - unfold verify_aggregated. destruct (negb _); [reflexivity|]. destruct (negb _); [reflexivity|]. destruct pks; [reflexivity|apply Hv].
  - unfold sk_validate. destruct (_ || _); [reflexivity|]. rewrite (tv_init_mode m m') by exact Hd.
    destruct (tv_init m' (sec_time sk) (pp_depth pp)) as [tv| |] eqn:Et; try reflexivity.
    rewrite (gamma_list_mode m' m _ _ _ Hd Et). destruct (gamma_list m tv _) as [gl| |]; try reflexivity.
    revert gl. induction (sec_ssk sk) as [|s0 l IH]; intros gl; [reflexivity|]. cbn [validate_loop].
    rewrite (ssk_validate_mode m m') by exact Hd. destruct (ssk_validate m' s0 pk pp) as [[|]| |]; cbn [bind negb]; try reflexivity.
    destruct gl as [|t gl]; [reflexivity|]. destruct (negb _); [reflexivity|apply IH].
Qed.

Lemma run_mode : forall (E : env) (L : env_laws E) m m' m'' (pp : pubparam E) pk sk ops,
  pp_ok pp -> reachable m pp pk sk ->
  run m' pp ops sk = run m'' pp ops sk.
Proof.
  intros E L m m' m'' pp pk sk ops Hpp Hr. destruct (reachable_good L m pp pk sk Hpp Hr) as (x & _ & _ & Hg & Hcs).
  clear Hr. pose proof (ppo_depth pp Hpp) as Hd. revert sk Hg. induction ops as [|o ops IH]; intros sk Hg; [reflexivity|].
  cbn [run]. pose proof (step_good L m'' pp x o sk Hpp Hcs Hg) as [Hg' _].
  assert (Ht : sec_time sk < 18446744073709551615).
  { pose proof (gsk_time _ _ _ Hg) as Ht. unfold last_time in Ht. pose proof (pow2_le (pp_depth pp) 63 ltac:(lia)).
    change (pow2 63) with 9223372036854775808 in *. lia. }
  rewrite (calls_mode E m' m'' pp o sk) by (lia || exact Ht). destruct (step m'' pp o sk) as [r sk1]. cbn [snd] in Hg'.
  rewrite (IH sk1 Hg'). reflexivity.
Qed.

Lemma reachable_mode : forall (E : env) (L : env_laws E) m m' (pp : pubparam E) pk sk,
  pp_ok pp -> reachable m pp pk sk -> reachable m' pp pk sk.
Proof.
  intros E L m m' pp pk sk Hpp (seed & sk0 & po & ops & Hk & Hr). exists seed, sk0, po, ops. split; [exact Hk|].
  rewrite <- Hr. f_equal. apply (run_mode E L m _ _ _ pk); [exact Hpp|]. exists seed, sk0, po, []. split; [exact Hk|reflexivity].
Qed.

(** Depth 64 is too deep. *)
Lemma depth64_modes_differ : forall (E : env) (pp : pubparam E) t seed sk,
  pp_depth pp = 64%nat -> sec_cs sk = pp_cs pp -> 0 < t ->
  update Debug pp t seed sk = (Panic P_ARITH, sk) /\ update Release pp t seed sk = (Err E_TIME_STAMP, sk).
Proof.
  intros E pp t seed sk Hd Hc Ht. unfold update, sbind, sget, slift. rewrite Hc, N.eqb_refl, Hd. cbn [negb].
  change (shl64 Debug 64) with (@Panic N P_ARITH). change (shl64 Release 64) with (Ok 1).
  split; [reflexivity|]. cbv beta iota. change (sub64 Release 1 1) with (Ok 0). cbv beta iota.
  assert (Hlt : (0 <? t) = true) by lia. destruct (t <=? sec_time sk); cbn [orb]; [reflexivity|]. rewrite Hlt. reflexivity.
Qed.
