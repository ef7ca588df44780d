(** Lemmas behind Properties_Key.v. *)
From Coq Require Import String Sorting.Sorted.
From Verif Require Import Base Env NMod GroupFacts Time SpecTime TimeFacts TimeProps Hkdf Prng SpecPrng PrngFacts
  SubKey SecretKey Keys Sig IO Serdes Api SpecKey SubKeyFacts SpecUpdate UpdateFacts KeyFacts SpecSer IOFacts SerFacts
  HistoryFacts.
From Coq Require Import ZifyBool ZifyNat ZifyN.
Local Open Scope N_scope.
Local Arguments N.add : simpl never.
Local Arguments N.mul : simpl never.
Local Arguments N.sub : simpl never.
Local Arguments pow2 : simpl never.

Lemma valid_cs_iff x : valid_cs x = true <-> x = 0 \/ x = 1.
Proof. unfold valid_cs, VALID_CIPHERSUITE. cbn [existsb]. lia. Qed.
Lemma valid_cs_false x : valid_cs x = false <-> ~ (x = 0 \/ x = 1).
Proof. rewrite <- valid_cs_iff. destruct (valid_cs x); split; congruence || tauto. Qed.

(** * Key generation *)
Lemma keygen_outcomes : forall (E : env) (L : env_laws E) (pp : pubparam E) seed,
  pp_hlist pp <> [] ->
  (is_ok (key_gen seed pp) = true <-> (32 <= length seed)%nat /\ (pp_cs pp = 0 \/ pp_cs pp = 1))
  /\ ((length seed < 32)%nat -> key_gen seed pp = Err E_SEED_TOO_SHORT)
  /\ ((32 <= length seed)%nat -> pp_cs pp <> 0 -> pp_cs pp <> 1 -> key_gen seed pp = Err E_CIPHERSUITE).
Proof.
  intros E L pp seed Hh.
  split; [|split; [apply key_gen_short|intros H1 H2 H3; apply key_gen_bad_cs; [exact H1|apply valid_cs_false; lia]]].
  destruct (Nat.lt_ge_cases (length seed) 32) as [Hs|Hs].
  { rewrite key_gen_short by exact Hs. cbn. split; [discriminate|lia]. }
  destruct (valid_cs (pp_cs pp)) eqn:Hcs.
  - pose proof Hcs as Hcs'. apply valid_cs_iff in Hcs'. destruct (pp_hlist pp) as [|h0 hs] eqn:Eh; [contradiction|].
    destruct (key_gen_head L pp seed h0 hs Hs Hcs Eh) as (s & -> & _). cbn. tauto.
  - rewrite key_gen_bad_cs by auto. apply valid_cs_false in Hcs. cbn. split; [discriminate|tauto].
Qed.

Lemma keygen_fields : forall (E : env) (L : env_laws E) (pp : pubparam E) seed pk sk pop,
  key_gen seed pp = Ok (pk, sk, pop) ->
  sec_time sk = 1 /\ map sk_t (sec_ssk sk) = [1]
  /\ sec_cs sk = pp_cs pp /\ pk_cs pk = pp_cs pp /\ pop_cs pop = pp_cs pp.
Proof.
  intros E L pp seed pk sk pop H.
  destruct (Nat.lt_ge_cases (length seed) 32) as [Hs|Hs].
  { rewrite key_gen_short in H by exact Hs. discriminate. }
  destruct (valid_cs (pp_cs pp)) eqn:Hcs.
  2:{ rewrite key_gen_bad_cs in H by auto. discriminate. }
  destruct (pp_hlist pp) as [|h0 hs] eqn:Eh.
  - exfalso. revert H. unfold key_gen. replace (length seed <? 32)%nat with false by lia.
    rewrite (master_key_gen_spec L) by auto. cbn [bind]. unfold pk_init, sk_init. rewrite Hcs. cbn [negb bind].
    rewrite sample_then_update_spec by apply (hash_len_env L). cbn [bind]. unfold ssk_init. rewrite Eh. discriminate.
  - destruct (key_gen_head L pp seed h0 hs Hs Hcs Eh) as (s & Hk & Hi). rewrite Hk in H.
    injection H as <- <- <-. cbn. unfold ssk_init in Hi. rewrite Eh in Hi. cbn [nth_res nth_error bind] in Hi.
    injection Hi as <-. cbn. auto.
Qed.

Lemma keygen_valid : forall (E : env) (L : env_laws E) m (pp : pubparam E) seed pk sk pop,
  pp_ok pp -> key_gen seed pp = Ok (pk, sk, pop) -> sk_validate m sk pk pp = Ok true.
Proof.
  intros E L m pp seed pk sk pop Hpp H. destruct (key_gen_good L pp seed pk sk pop Hpp H) as (x & _ & -> & Hg & _ & _).
  apply (validate_good L); auto.
Qed.

Lemma keygen_pop : forall (E : env) (L : env_laws E) (pp : pubparam E) seed pk sk pop,
  pp_ok pp -> pp_g2 pp = g2_one -> key_gen seed pp = Ok (pk, sk, pop) -> pk_validate pk pop = true.
Proof.
  intros E L pp seed pk sk pop Hpp Hg2 H.
  destruct (Nat.lt_ge_cases (length seed) 32) as [Hs|Hs].
  { rewrite key_gen_short in H by exact Hs. discriminate. }
  destruct (valid_cs (pp_cs pp)) eqn:Hcs.
  2:{ rewrite key_gen_bad_cs in H by auto. discriminate. }
  rewrite (key_gen_spec L) in H by auto. injection H as <- _ <-. unfold pk_validate. cbn [pk_cs pop_cs pk_pk pop_pop].
  rewrite Hcs, N.eqb_refl. cbn [negb]. rewrite Hg2. apply (lb_ok E L).
Qed.

(** Two key generations agree on everything iff they have the same seed hash: the key
    pair is a function of the parameters and the seed only, and the master secret is the
    specified scalar. *)
Lemma keygen_master : forall (E : env) (L : env_laws E) (pp : pubparam E) seed pk sk pop,
  pp_ok pp -> key_gen seed pp = Ok (pk, sk, pop) ->
  let prk := rfc_hmac (sha512 E) (DOM_SEP_MASTER_KEY ++ [pp_cs pp]) seed in
  let x := os2ip (rfc_hmac (sha512 E) prk (KEY_INIT_INFO ++ [1])) mod fr_modulus in
  pk_pk pk = g2_mul x (pp_g2 pp) /\ pop_pop pop = bls_sign x (DOM_SEP_POP ++ g2_enc true (pk_pk pk)) [pp_cs pp]
  /\ exists r, sec_ssk sk = [honest_ssk pp x 1 [] r].
Proof.
  intros E L pp seed pk sk pop Hpp H. cbv zeta.
  destruct (Nat.lt_ge_cases (length seed) 32) as [Hs|Hs].
  { rewrite key_gen_short in H by exact Hs. discriminate. }
  destruct (valid_cs (pp_cs pp)) eqn:Hcs.
  2:{ rewrite key_gen_bad_cs in H by auto. discriminate. }
  rewrite (key_gen_spec L) in H by auto. injection H as <- <- <-.
  cbn [pk_pk pop_pop sec_ssk]. split; [reflexivity|]. split; [reflexivity|]. eexists. reflexivity.
Qed.

(** What validate checks of a proof of possession, and what key generation puts into it. *)
Lemma pop_accepted_iff : forall (E : env) (pk : pubkey E) (pop : proof E),
  pk_validate pk pop = true <->
  (pk_cs pk = 0 \/ pk_cs pk = 1) /\ pop_cs pop = pk_cs pk
  /\ bls_verify (pk_pk pk) (pop_pop pop) (str "Pixel public key POP" ++ g2_enc true (pk_pk pk)) [pk_cs pk] = true.
Proof.
  intros E pk pop. change (str "Pixel public key POP") with DOM_SEP_POP. unfold pk_validate, pop_msg.
  destruct (valid_cs (pk_cs pk)) eqn:Hv; cbn [negb].
  - apply valid_cs_iff in Hv. destruct (N.eqb_spec (pk_cs pk) (pop_cs pop)) as [He|He]; cbn [negb].
    + split; [auto|]. intros (_ & _ & H). exact H.
    + split; [discriminate|]. intros (_ & H & _). congruence.
  - apply valid_cs_false in Hv. split; [discriminate|tauto].
Qed.
Lemma keygen_pop_value : forall (E : env) (L : env_laws E) (pp : pubparam E) seed pk sk pop,
  pp_ok pp -> key_gen seed pp = Ok (pk, sk, pop) ->
  let prk := rfc_hmac (sha512 E) (str "Pixel master key" ++ [pp_cs pp]) seed in
  exists x, pk_pk pk = g2_mul x (pp_g2 pp)
    /\ x = os2ip (rfc_hmac (sha512 E) prk (str "key initialization" ++ [1])) mod fr_modulus
    /\ pop_pop pop = bls_sign x (str "Pixel public key POP" ++ g2_enc true (pk_pk pk)) [pp_cs pp].
Proof.
  intros E L pp seed pk sk pop Hpp H. cbv zeta. destruct (keygen_master E L pp seed pk sk pop Hpp H) as (H1 & H2 & _).
  eexists. split; [exact H1|]. split; [reflexivity|exact H2].
Qed.

(** * Update *)
Lemma update_outcomes : forall (E : env) (L : env_laws E) m m' (pp : pubparam E) pk sk t seed,
  pp_ok pp -> reachable m pp pk sk ->
  (sec_time sk < t <= last_time (pp_depth pp) ->
     (exists sk', update m' pp t seed sk = (Ok tt, sk'))
     \/ (update m' pp t seed sk = (Panic P_PRNG, sk)
         /\ exists i, (1 <= i < pp_depth pp)%nat
                      /\ draws (sha512 E) i (spec_reseed sk seed) = sec_prng sk))
  /\ (~ (sec_time sk < t <= last_time (pp_depth pp)) -> update m' pp t seed sk = (Err E_TIME_STAMP, sk)).
Proof.
  intros E L m m' pp pk sk t seed Hpp Hr. destruct (reachable_good L m pp pk sk Hpp Hr) as (x & _ & _ & Hg & _).
  pose proof (update_cases L m' pp x sk t seed Hpp Hg) as H. unfold in_range in H.
  split; intros Ht.
  - replace ((sec_time sk <? t) && (t <=? last_time (pp_depth pp))) with true in H by lia.
    destruct (update_good L m' pp x sk t seed Hpp Hg Ht) as (pre & ta & va & r & post & Hsp & [[_ Hu]|[Hlt Hu]]).
    { left. eauto. }
    destruct Hu as (tv & gpre & gpost & Htv & Hgl & _ & Htil & _ & _ & Hu).
    destruct (spec_fresh pp x r (sec_prng sk) true gpre (spec_reseed sk seed)) as [[ks g']|] eqn:Ef; [left; eauto|].
    right. split; [exact Hu|]. apply spec_fresh_none in Ef as (i & Hi & Hd). exists i. split; [|exact Hd].
    pose proof (ppo_depth pp Hpp).
    destruct (tv_init_node m' (pp_depth pp) t tv ltac:(lia) Htv) as [Htt Hn].
    destruct tv as [t0 v]. cbn [tv_time tv_vec] in *. subst t0.
    destruct (gamma_list_spec m' (pp_depth pp) t v ltac:(lia) Hn) as (pl & Hgl' & _ & _ & Hlen & _).
    rewrite Hgl in Hgl'. injection Hgl' as Hgl'. apply (f_equal (@length timevec)) in Hgl'.
    rewrite app_length, map_length in Hgl'. lia.
  - replace ((sec_time sk <? t) && (t <=? last_time (pp_depth pp))) with false in H by lia. exact H.
Qed.

Lemma update_ok_iff : forall (E : env) (L : env_laws E) m m' (pp : pubparam E) pk sk t seed,
  pp_ok pp -> reachable m pp pk sk ->
  (forall i, (1 <= i < pp_depth pp)%nat -> draws (sha512 E) i (spec_reseed sk seed) <> sec_prng sk) ->
  (is_ok (fst (update m' pp t seed sk)) = true <-> sec_time sk < t <= last_time (pp_depth pp)).
Proof.
  intros E L m m' pp pk sk t seed Hpp Hr Hnr.
  destruct (update_outcomes E L m m' pp pk sk t seed Hpp Hr) as [H1 H2].
  split.
  - intros Hok. destruct (N.lt_ge_cases (sec_time sk) t) as [Ha|Ha]; [destruct (N.le_gt_cases t (last_time (pp_depth pp))) as [Hb|Hb]|].
    + auto.
    + rewrite H2 in Hok by lia. discriminate.
    + rewrite H2 in Hok by lia. discriminate.
  - intros Ht. destruct (H1 Ht) as [(sk' & ->)|(-> & i & Hi & Hd)]; [reflexivity|]. destruct (Hnr i Hi Hd).
Qed.

Lemma update_wrong_cs : forall (E : env) m (pp : pubparam E) sk t seed,
  sec_cs sk <> pp_cs pp -> update m pp t seed sk = (Err E_CIPHERSUITE, sk).
Proof. intros E. exact (@update_cs_err E). Qed.

Lemma update_result_shape : forall (E : env) (L : env_laws E) m m' (pp : pubparam E) pk sk t seed sk',
  pp_ok pp -> reachable m pp pk sk -> update m' pp t seed sk = (Ok tt, sk') ->
  sec_time sk' = t /\ sec_cs sk' = sec_cs sk
  /\ tiling (pp_depth pp) t (map sk_t (sec_ssk sk'))
  /\ exists tv gl, tv_init m' t (pp_depth pp) = Ok tv /\ gamma_list m' tv (pp_depth pp) = Ok gl
                   /\ map sk_t (sec_ssk sk') = map tv_time gl.
Proof.
  intros E L m m' pp pk sk t seed sk' Hpp Hr Hu.
  destruct (reachable_good L m pp pk sk Hpp Hr) as (x & _ & _ & Hg & _).
  pose proof (update_cases L m' pp x sk t seed Hpp Hg) as H. destruct (in_range pp sk t) eqn:Er.
  2:{ rewrite Hu in H. discriminate. }
  destruct H as [(sk1 & Hu1 & Hg' & Ht)|[Hp _]]; [|rewrite Hu in Hp; discriminate].
  rewrite Hu in Hu1. injection Hu1 as <-. unfold in_range in Er.
  split; [exact Ht|]. split; [rewrite (gsk_cs _ _ _ Hg'), (gsk_cs _ _ _ Hg); reflexivity|].
  pose proof (gsk_til _ _ _ Hg') as Htil. rewrite Ht in Htil. split; [exact Htil|].
  pose proof (ppo_depth pp Hpp). pose proof (gsk_time _ _ _ Hg).
  destruct (tv_init_ex m' (pp_depth pp) t ltac:(lia) ltac:(lia)) as (v & Hn & Htv).
  destruct (gamma_list_spec m' (pp_depth pp) t v ltac:(lia) Hn) as (pl & Hgl & _ & Htil' & _).
  exists (TimeVec t v), (map (mk_tv (pp_depth pp)) pl). split; [exact Htv|]. split; [exact Hgl|].
  rewrite map_map. cbn [mk_tv tv_time]. apply (tiling_fun _ _ _ _ Htil Htil').
Qed.

(** * Histories *)
Lemma history_valid : forall (E : env) (L : env_laws E) m m' (pp : pubparam E) seed pk sk pop ops,
  pp_ok pp -> key_gen seed pp = Ok (pk, sk, pop) ->
  sk_validate m' (snd (run m pp ops sk)) pk pp = Ok true.
Proof.
  intros E L m m' pp seed pk sk pop ops Hpp H.
  destruct (key_gen_good L pp seed pk sk pop Hpp H) as (x & _ & -> & Hg & _ & Hcs).
  apply (validate_good L); auto. apply (run_good L); auto.
Qed.

Lemma update_err_unchanged : forall (E : env) m (pp : pubparam E) sk t seed,
  is_ok (fst (update m pp t seed sk)) = false -> snd (update m pp t seed sk) = sk.
Proof.
  intros E m pp sk t seed H. pose proof (update_atomic m pp sk t seed) as Ha.
  destruct (update m pp t seed sk) as [[u|e|p] sk']; cbn in *; [discriminate|exact Ha|exact Ha].
Qed.

Lemma step_untouched_or_later {E} (L : env_laws E) m (pp : pubparam E) x o sk :
  pp_ok pp -> valid_cs (pp_cs pp) = true -> good_sk pp x sk ->
  snd (step m pp o sk) = sk \/ sec_time sk < sec_time (snd (step m pp o sk)).
Proof.
  intros Hpp Hcs Hg. pose proof (step_good L m pp x o sk Hpp Hcs Hg) as [_ H].
  destruct (step m pp o sk) as [r sk']. cbn [fst snd] in *.
  destruct o as [t seed|t msg seed|t msg|t msg seed|c], r as [[s|]|e|p]; cbn in H; try tauto; try (left; tauto); try lia.
  destruct H as (_ & Hle & Ht & Hs). destruct (N.eq_dec (sec_time sk) t) as [He|He]; [left; auto|right; lia].
Qed.

Lemma history_untouched_or_later : forall (E : env) (L : env_laws E) m (pp : pubparam E) pk sk ops,
  pp_ok pp -> reachable m pp pk sk ->
  snd (run m pp ops sk) = sk \/ sec_time sk < sec_time (snd (run m pp ops sk)).
Proof.
  intros E L m pp pk sk ops Hpp Hr. destruct (reachable_good L m pp pk sk Hpp Hr) as (x & _ & _ & Hg & Hcs).
  clear Hr. revert sk Hg. induction ops as [|o ops IH]; intros sk Hg; [left; reflexivity|]. cbn [run].
  pose proof (step_untouched_or_later L m pp x o sk Hpp Hcs Hg) as H1.
  pose proof (step_good L m pp x o sk Hpp Hcs Hg) as [Hg' _].
  destruct (step m pp o sk) as [r sk1]. cbn [fst snd] in *. specialize (IH sk1 Hg').
  destruct (run m pp ops sk1) as [rs sk2]. cbn [snd] in *.
  destruct H1 as [->|H1], IH as [->|IH]; auto; right; lia.
Qed.

Lemma history_time_monotone : forall (E : env) (L : env_laws E) m (pp : pubparam E) pk sk ops1 ops2,
  pp_ok pp -> reachable m pp pk sk ->
  sec_time (snd (run m pp ops1 sk)) <= sec_time (snd (run m pp (ops1 ++ ops2) sk)).
Proof.
  intros E L m pp pk sk ops1 ops2 Hpp Hr. rewrite run_app. cbn [snd].
  destruct (history_untouched_or_later E L m pp pk _ ops2 Hpp (reachable_run m pp pk sk ops1 Hr)) as [-> |H]; lia.
Qed.

Lemma failed_step_keeps_key : forall (E : env) (L : env_laws E) m (pp : pubparam E) pk sk o,
  pp_ok pp -> reachable m pp pk sk ->
  is_ok (fst (step m pp o sk)) = false -> snd (step m pp o sk) = sk.
Proof.
  intros E L m pp pk sk o Hpp Hr. destruct (reachable_good L m pp pk sk Hpp Hr) as (x & _ & _ & Hg & Hcs).
  pose proof (step_good L m pp x o sk Hpp Hcs Hg) as [_ H]. destruct (step m pp o sk) as [r sk']. cbn [fst snd] in *.
  destruct r as [a|e|p]; [discriminate| |]; intros _; destruct o; cbn in H; tauto.
Qed.
