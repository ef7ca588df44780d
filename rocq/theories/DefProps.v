(** Proofs about default and wiped objects ([Default]). *)
From Verif Require Import Base Env Time Hkdf Prng SpecPrng SpecTime SubKey SecretKey Keys Sig IO Serdes Api SpecKey SpecUpdate
  TimeFacts PrngFacts GroupFacts SubKeyFacts UpdateFacts KeyFacts VerProps Default SpecSer SerProps FfiProps.
From Coq Require Import Lia ZifyBool ZifyNat ZifyN.
Local Open Scope N_scope.

Lemma array_wipe_repeat l : array_wipe l = repeat 0 (length l).
Proof. induction l as [|a l IH]; [reflexivity|]. cbn [array_wipe map length repeat] in *. f_equal. exact IH. Qed.

Lemma wiped_is_default : forall (E : env) (g : prng) (s : subkey E) (sk : seckey E),
  (length g = 64%nat -> prng_wipe g = prng_default)
  /\ ssk_wipe s = ssk_default
  /\ (length (sec_prng sk) = 64%nat -> sk_wipe sk = sk_default).
Proof.
  intros E g s sk. assert (H : forall g, length g = 64%nat -> prng_wipe g = prng_default).
  { intros g' Hg. unfold prng_wipe. rewrite array_wipe_repeat, Hg. reflexivity. }
  split; [apply H|]. split; [reflexivity|]. intros Hl. unfold sk_wipe. rewrite (H _ Hl). reflexivity.
Qed.

(** * Keys without sub keys *)
Lemma update_empty {E} m (pp : pubparam E) t seed sk : (1 <= pp_depth pp < 64)%nat -> sec_ssk sk = [] ->
  exists e, update m pp t seed sk = (Err e, sk).
Proof.
  intros Hd Hs. unfold update, sbind, sget, slift. destruct (negb _); [eauto|].
  pose proof (max_time_ok m (pp_depth pp) Hd) as Hmax. destruct (shl64 m (pp_depth pp)) as [p| |]; try discriminate.
  cbn [bind] in Hmax. rewrite Hmax. destruct (_ || _); [eauto|].
  unfold find_ancestor. rewrite Hs. eauto.
Qed.
Lemma sign_bytes_empty {E} (L : env_laws E) m (pp : pubparam E) msg sk : sec_ssk sk = [] ->
  exists e, sign_bytes m sk (sec_time sk) pp msg = Err e.
Proof.
  intros Hs. unfold sign_bytes. destruct (negb _); [eauto|]. destruct (negb _); [eauto|]. rewrite N.eqb_refl. cbn [negb].
  rewrite sample_spec by apply (hash_len_env L). cbn [bind]. rewrite (hash_msg_spec L). cbn [bind].
  unfold sign_fr. rewrite N.eqb_refl. cbn [negb]. unfold first_ssk. rewrite Hs. cbn [bind]. eauto.
Qed.

Lemma reload_empty {E} c (sk : seckey E) : sec_ssk sk = [] -> length (sec_prng sk) = 64%nat ->
  exists e, reload c sk = (Err e, sk).
Proof.
  intros Hs Hl. unfold reload, to_vec, sk_serialize, sbind, slift. destruct (valid_cs (sec_cs sk)) eqn:Hc; cbn [negb]; [|eauto].
  rewrite Hs. cbn [ssks_serialize sret vec_writer w_out]. unfold write_all, vec_writer. cbn [w_script w_out].
  set (b := ([sec_cs sk] ++ [as_u8 (N.of_nat (length (@nil (subkey E))))]) ++ sec_prng sk).
  assert (Hb : b = sec_cs sk :: 0 :: sec_prng sk) by reflexivity. rewrite Hb. cbn [write_all_loop w_out app].
  unfold from_slice, sk_deserialize, sbind, read_exact. cbn [rpush read_exact_loop length Nat.leb firstn skipn].
  destruct (sec_prng sk) as [|a l] eqn:Hp; [discriminate Hl|]. cbn [rpush].
  replace (read_exact_loop [RData (a :: l)] 64) with (@Ok bytes (a :: l), @nil revent).
  2:{ unfold read_exact_loop. rewrite Hl. change (64 <=? 64)%nat with true. cbn [rpush].
      rewrite firstn_all2, skipn_all2 by (rewrite Hl; auto). reflexivity. }
  cbn [nth]. rewrite Hc. cbn [negb N.eqb fst slift]. eexists. reflexivity.
Qed.

Lemma empty_key_history : forall (E : env) (L : env_laws E) m (pp : pubparam E) ops sk,
  (1 <= pp_depth pp < 64)%nat -> sec_ssk sk = [] -> length (sec_prng sk) = 64%nat ->
  snd (run m pp ops sk) = sk /\ Forall (fun r => exists e, r = Err e) (fst (run m pp ops sk)).
Proof.
  intros E L m pp ops sk Hd Hs Hl.
  assert (Hstep : forall o, exists e, step m pp o sk = (Err e, sk)).
  { intros o. destruct o as [t seed|t msg seed|t msg|t msg seed|c]; cbn [step]; unfold sbind.
    - destruct (update_empty m pp t seed sk Hd Hs) as [e ->]. eauto.
    - unfold sign, sbind, sget, slift. destruct (N.ltb_spec t (sec_time sk)); [eauto|].
      destruct (N.ltb_spec (sec_time sk) t).
      + destruct (update_empty m pp t seed sk Hd Hs) as [e ->]. eauto.
      + unfold sret. replace t with (sec_time sk) by lia. destruct (sign_bytes_empty L m pp msg sk Hs) as [e ->]. eauto.
    - unfold sign_present, sbind, sget, slift. destruct (N.eqb_spec (sec_time sk) t) as [<-|]; cbn [negb]; [|eauto].
      destruct (sign_bytes_empty L m pp msg sk Hs) as [e ->]. eauto.
    - unfold sign_then_update, sbind, sget, slift. destruct (N.eqb_spec (sec_time sk) t) as [<-|]; cbn [negb]; [|eauto].
      destruct (sign_bytes_empty L m pp msg sk Hs) as [e ->]. eauto.
    - destruct (reload_empty c sk Hs Hl) as [e ->]. eauto. }
  induction ops as [|o ops IH]; cbn [run]; [split; [reflexivity|constructor]|].
  destruct (Hstep o) as [e ->]. destruct (run m pp ops sk) as [rs sk2]. destruct IH as [IH1 IH2]. cbn [fst snd] in *.
  split; [exact IH1|]. constructor; [eauto|exact IH2].
Qed.

Lemma default_key_history : forall (E : env) (L : env_laws E) m (pp : pubparam E) ops (sk : seckey E),
  (1 <= pp_depth pp < 64)%nat -> length (sec_prng sk) = 64%nat ->
  snd (run m pp ops (sk_wipe sk)) = sk_default
  /\ Forall (fun r => exists e, r = Err e) (fst (run m pp ops (sk_wipe sk))).
Proof.
  intros E L m pp ops sk Hd Hl. destruct (wiped_is_default E [] ssk_default sk) as (_ & _ & Hw). rewrite (Hw Hl).
  apply (empty_key_history E L); auto.
Qed.

Lemma time0 m d : (1 <= d < 64)%nat -> time_to_vec m 0 d = Err E_TIME_STAMP.
Proof.
  intros Hd. destruct d as [|d]; [lia|]. cbn [time_to_vec]. rewrite shl64_ok by lia. cbn [bind].
  replace (0 =? 0) with true by reflexivity. rewrite Bool.orb_true_r. reflexivity.
Qed.

Lemma default_key_calls : forall (E : env) m (pp : pubparam E) pk c,
  (1 <= pp_depth pp < 64)%nat ->
  sk_validate m sk_default pk pp = Ok false
  /\ to_vec (sk_serialize (@sk_default E) c) = Ok (repeat 0 66)
  /\ from_slice (@sk_deserialize E c) (repeat 0 66) = Err E_DESERIAL
  /\ sk_digest (@sk_default E) = Ok (sha512 E (repeat 0 132)).
Proof.
  intros E m pp pk c Hd. split; [|split; [reflexivity|split; reflexivity]].
  unfold sk_validate. destruct (_ || _); [reflexivity|]. unfold tv_init. cbn [sk_default sec_time].
  rewrite time0 by exact Hd. reflexivity.
Qed.

Lemma default_subkey_calls : forall (E : env) m (pp : pubparam E) pk t r c,
  (1 <= pp_depth pp < 64)%nat ->
  ssk_time_vec m (@ssk_default E) (pp_depth pp) = Err E_TIME_STAMP
  /\ delegate m t (pp_depth pp) (@ssk_default E) = (Err E_TIME_STAMP, ssk_default)
  /\ randomization m pp r ssk_default
     = (Err E_TIME_STAMP, SubKey 0 (g2_add g2_zero (g2_mul r (pp_g2 pp))) g1_zero [])
  /\ ssk_validate m ssk_default pk pp = Ok false
  /\ (exists b, to_vec (ssk_serialize (@ssk_default E) c) = Ok b /\ from_slice (@ssk_deserialize E c) b = Err E_TIME_STAMP).
Proof.
  intros E m pp pk t r c Hd.
  assert (Ht : forall s : subkey E, sk_t s = 0 -> ssk_time_vec m s (pp_depth pp) = Err E_TIME_STAMP).
  { intros s Hs. unfold ssk_time_vec, tv_init. rewrite Hs, time0 by exact Hd. reflexivity. }
  split; [apply Ht; reflexivity|]. split.
  { unfold delegate, sbind, sget, slift, tv_init. cbn [ssk_default sk_t]. rewrite time0 by exact Hd. reflexivity. }
  split.
  { unfold randomization, sbind, sget, slift, sput. rewrite Ht by reflexivity. reflexivity. }
  split.
  { unfold ssk_validate, tv_init. cbn [ssk_default sk_t]. rewrite time0 by exact Hd. reflexivity. }
  eexists. split; [reflexivity|]. reflexivity.
Qed.

Lemma default_signature_calls : forall (E : env) (L : env_laws E) m (pp : pubparam E) pk k pks msg,
  pp_ok pp ->
  verify m sig_default pk pp msg = Ok false
  /\ verify_aggregated m sig_default (k :: pks) pp msg = Ok false
  /\ aggregate (sig_default :: repeat (@sig_default E) (length pks)) = Ok sig_default
  /\ (forall s l, In s l -> sig_time s <> 0 -> exists e, aggregate (@sig_default E :: l) = Err e)
  /\ (exists b, to_vec (sig_serialize (@sig_default E) true) = Ok b /\ from_slice (@sig_deserialize E true) b = Err E_TIME_STAMP).
Proof.
  intros E L m pp pk k pks msg Hpp. pose proof (ppo_depth pp Hpp) as Hd. pose proof (ppo_len pp Hpp) as Hl.
  assert (Hv : forall pk, verify m sig_default pk pp msg = Ok false).
  { intros pk'. unfold verify. destruct (negb _); [reflexivity|]. destruct (negb _); [reflexivity|].
    rewrite (hash_msg_spec L). cbn [bind]. unfold verify_fr. destruct (_ || _); [reflexivity|].
    rewrite (nth_res_ok _ _ g1_zero) by lia. cbn [bind]. unfold tv_init. cbn [sig_default sig_time]. rewrite time0 by exact Hd. reflexivity. }
  split; [apply Hv|]. split.
  { unfold verify_aggregated. destruct (negb _); [reflexivity|]. destruct (negb _); [reflexivity|]. apply Hv. }
  split.
  { unfold aggregate. assert (Hc : forall n, agg_check (@sig_default E) (repeat sig_default n) = Ok tt).
    { induction n as [|n IH]; [reflexivity|]. exact IH. }
    rewrite Hc. cbn [bind]. f_equal. induction (length pks) as [|n IH]; [reflexivity|]. cbn [repeat fold_left].
    cbn [sig_default sig_cs sig_time sig_1 sig_2].
    replace (g2_add (@g2_zero E) g2_zero) with (@g2_zero E) by g2_solve L. replace (g1_add (@g1_zero E) g1_zero) with (@g1_zero E) by g1_solve L.
    exact IH. }
  split.
  { intros s l Hin Ht. unfold aggregate. assert (Hc : exists e, agg_check sig_default l = Err e).
    { induction l as [|a l IH]; [destruct Hin|]. cbn [agg_check]. destruct (negb _); [eauto|]. destruct (N.eqb_spec (sig_time (@sig_default E)) (sig_time a)) as [He|]; cbn [negb]; [|eauto].
      apply IH. destruct Hin as [<-|Hin]; [|exact Hin]. exfalso. apply Ht. rewrite <- He. reflexivity. }
    destruct Hc as [e ->]. exists e. reflexivity. }
  eexists. split; [reflexivity|]. reflexivity.
Qed.

Lemma default_public_key : forall (E : env) (L : env_laws E) m (pp : pubparam E) t msg,
  pp_ok pp -> pp_cs pp = 0 -> 1 <= t <= last_time (pp_depth pp) ->
  (exists pop, pk_validate (@pk_default E) pop = true)
  /\ verify m (Signature 0 t g2_zero g1_zero) pk_default pp msg = Ok true.
Proof.
  intros E L m pp t msg Hpp Hcs Ht. split.
  - exists (Pop 0 (bls_sign 0 (@pop_msg E g2_zero) [0])). unfold pk_validate. cbn [pk_default pk_cs pk_pk pop_cs pop_pop].
    change (negb (valid_cs 0)) with false. cbn [N.eqb negb].
    replace (@g2_zero E) with (g2_mul 0 (@g2_one E)) at 1 by apply (l2_mul0 E L). apply (lb_ok E L).
  - rewrite <- Hcs. apply (identity_key_accepts E L); auto.
Qed.

Lemma default_bytes : forall (E : env) (L : env_laws E) c,
  to_vec (sig_serialize (@sig_default E) c) = Ok (repeat 0 5 ++ g2_enc c (@g2_zero E) ++ g1_enc c (@g1_zero E))
  /\ to_vec (pk_serialize (@pk_default E) c) = Ok (0 :: g2_enc c (@g2_zero E))
  /\ from_slice (@pk_deserialize E c) (0 :: g2_enc c (@g2_zero E)) = Ok pk_default
  /\ to_vec (pop_serialize (@pop_default E) c) = Ok (0 :: g1_enc c (@g1_zero E))
  /\ from_slice (@pop_deserialize E c) (0 :: g1_enc c (@g1_zero E)) = Ok pop_default.
Proof.
  intros E L c.
  assert (Hk : wf_pk (@pk_default E)) by (constructor; [left; reflexivity|apply (l2_sub0 E L)]).
  assert (Hp : wf_pop (@pop_default E)) by (constructor; [left; reflexivity|apply (l1_sub0 E L)]).
  split; [exact eq_refl|]. split; [exact (proj1 (pk_roundtrip E L c pk_default Hk))|].
  split; [exact (slice_pk L c pk_default Hk)|]. split; [exact (proj1 (pop_roundtrip E L c pop_default Hp))|].
  exact (slice_pop L c pop_default Hp).
Qed.
