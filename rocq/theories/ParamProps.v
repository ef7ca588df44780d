From Coq Require Import String.
From Coq Require Import ZifyBool ZifyNat ZifyN.
From Verif Require Import Base Env Time Hkdf Prng SubKey SecretKey Keys Sig IO Serdes Api Python Param.
From Verif Require Import SpecTime SpecPrng PrngFacts SpecKey SpecUpdate SpecSer SpecColl SpecParam GroupFacts KeyFacts UpdateFacts SerFacts IOFacts HistoryFacts KeyProps ValProps CollProps ProgProps TestProps.
Local Open Scope N_scope.

Lemma some_inj {A} (a b : A) : Some a = Some b -> a = b.
Proof. congruence. Qed.
Lemma expand_32 H g info : hash_len H -> hkdf_expand H g info 32 = Some (firstn 32 (hkdf_T1 H g info)).
Proof.
  intros HH. pose proof (hkdf_expand_64 H g info HH) as H64. unfold hkdf_expand in *.
  change (64 * 255 <? 64)%nat with false in H64. change (64 * 255 <? 32)%nat with false.
  change ((64 + 63) / 64)%nat with 1%nat in H64. change ((32 + 63) / 64)%nat with 1%nat.
  cbn [hkdf_blocks] in *. rewrite app_nil_r in *. apply some_inj in H64. rewrite <- H64, firstn_firstn. reflexivity.
Qed.
Lemma hlist_ok {E} (L : env_laws E) (h2c : bytes -> bytes -> G1 E) m cs n i : (i + n <= 256)%nat ->
  py_param_hlist h2c m cs i n
  = Some (map (fun j => h2c (firstn 32 (hkdf_T1 (sha512 E) m (str "H2G_h" ++ [N.of_nat j]))) cs) (seq i n)).
Proof.
  revert i. induction n as [|n IH]; intros i Hi; [reflexivity|]. cbn [py_param_hlist]. unfold py_i2osp1.
  replace (i <? 256)%nat with true by lia. rewrite (expand_32 _ _ _ (hash_len_env L)), (IH (S i)) by lia. reflexivity.
Qed.
Lemma param_is_spec : forall (E : env) (L : env_laws E) (h2c : bytes -> bytes -> G1 E) seed cs d,
  (d < 255)%nat ->
  exists buf, py_param h2c seed cs d = Some (spec_param h2c seed cs d, buf)
  /\ buf = [cs; N.of_nat d] ++ g2_enc false (@g2_one E) ++ g1_enc false (pp_h (spec_param h2c seed cs d))
           ++ concat (map (g1_enc false) (pp_hlist (spec_param h2c seed cs d)))
  /\ length buf = (2 + 96 + 192 * (d + 2))%nat.
Proof.
  intros E L h2c seed cs d Hd. eexists. split; [|split; [reflexivity|]].
  - unfold py_param, hkdf_extract. rewrite (expand_32 _ _ _ (hash_len_env L)), (hlist_ok L) by lia. unfold py_chr.
    replace (d <? 256)%nat with true by lia. unfold spec_param, param_point. cbn [pp_h pp_hlist].
    rewrite hmac_rfc by apply (hash_len_env L). reflexivity.
  - rewrite !app_length, (lc2_len E L), (lc1_len E L). cbn [length].
    enough (H : forall l : list (G1 E), length (concat (map (g1_enc false) l)) = (192 * length l)%nat).
    { rewrite H. unfold spec_param. cbn [pp_hlist]. rewrite map_length, seq_length. cbn [g1_size g2_size]. lia. }
    induction l as [|x l IH]; [reflexivity|]. cbn [map concat]. rewrite app_length, (lc1_len E L), IH. cbn [g1_size length]. lia.
Qed.

Lemma spec_param_ok : forall (E : env) (L : env_laws E) (h2c : bytes -> bytes -> G1 E) seed cs d,
  (forall key c, g1_insub (h2c key c) = true) -> (1 <= d < 64)%nat ->
  pp_ok (spec_param h2c seed cs d) /\ pp_g2 (spec_param h2c seed cs d) = g2_one
  /\ pp_depth (spec_param h2c seed cs d) = d /\ pp_cs (spec_param h2c seed cs d) = cs
  /\ length (pp_hlist (spec_param h2c seed cs d)) = (d + 1)%nat.
Proof.
  intros E L h2c seed cs d Hh Hd. unfold spec_param. cbn [pp_g2 pp_depth pp_cs pp_hlist].
  rewrite map_length, seq_length. split; [|auto]. constructor; cbn [pp_g2 pp_depth pp_h pp_hlist].
  - exact Hd.
  - rewrite map_length, seq_length. lia.
  - apply Forall_map, Forall_forall. intros i _. apply Hh.
  - apply Hh.
  - apply (l2_one_sub E L).
Qed.
Lemma concat_inj {E} (L : env_laws E) (l l' : list (G1 E)) : Forall (fun h => g1_insub h = true) l -> Forall (fun h => g1_insub h = true) l' ->
  length l = length l' -> concat (map (g1_enc false) l) = concat (map (g1_enc false) l') -> l = l'.
Proof.
  intros Hl. revert l'. induction Hl as [|x l Hx Hl IH]; intros [|y l'] Hl' Hn H; try discriminate; [reflexivity|].
  cbn [map concat] in H. inversion Hl' as [|? ? Hy Hl'']; subst. injection Hn as Hn.
  apply app_inj_len in H as [H1 H2]; [|rewrite !(lc1_len E L); reflexivity]. f_equal; [|apply IH; auto].
  apply (f_equal (@g1_dec E false)) in H1. rewrite !(lc1_rt E L) in H1 by auto. congruence.
Qed.
Lemma pp_ext {E} (p q : pubparam E) : pp_depth p = pp_depth q -> pp_cs p = pp_cs q -> pp_g2 p = pp_g2 q -> pp_h p = pp_h q ->
  pp_hlist p = pp_hlist q -> p = q.
Proof. destruct p as [a b c d e], q as [a' b' c' d' e']. cbn. congruence. Qed.
Lemma param_file_determines : forall (E : env) (L : env_laws E) (h2c : bytes -> bytes -> G1 E) seed cs d pp seed' cs' d' pp' buf,
  (forall key c, g1_insub (h2c key c) = true) -> (1 <= d < 64)%nat -> (1 <= d' < 64)%nat ->
  py_param h2c seed cs d = Some (pp, buf) -> py_param h2c seed' cs' d' = Some (pp', buf) -> pp = pp'.
Proof.
  intros E L h2c seed cs d pp seed' cs' d' pp' buf Hh Hd Hd' H H'.
  destruct (param_is_spec E L h2c seed cs d ltac:(lia)) as (b & Hb & Eb & _). rewrite H in Hb. injection Hb as -> <-.
  destruct (param_is_spec E L h2c seed' cs' d' ltac:(lia)) as (b & Hb & Eb' & _). rewrite H' in Hb. injection Hb as -> <-.
  rewrite Eb in Eb'. cbn [app] in Eb'. injection Eb' as Hc Hdd He. assert (Hn : d = d') by lia. subst d'.
  destruct (spec_param_ok E L h2c seed cs d Hh Hd) as (Ho & Hg & He1 & He2 & Hlen).
  destruct (spec_param_ok E L h2c seed' cs' d Hh Hd) as (Ho' & Hg' & He1' & He2' & Hlen').
  apply app_inj_len in He as [_ He]; [|reflexivity].
  apply app_inj_len in He as [Heh Hel]; [|rewrite !(lc1_len E L); reflexivity].
  apply (concat_inj L) in Hel; [|apply Ho|apply Ho'|exact (eq_trans Hlen (eq_sym Hlen'))].
  apply (f_equal (@g1_dec E false)) in Heh. rewrite !(lc1_rt E L) in Heh by (apply Ho || apply Ho'). apply some_inj in Heh.
  apply pp_ext; [congruence|congruence|congruence|exact Heh|exact Hel].
Qed.

(** * Everything from the seeds: no hypothesis on the parameters *)
Lemma default_end_to_end : forall (E : env) (L : env_laws E) m (h2c : bytes -> bytes -> G1 E) kseed,
  (forall key c, g1_insub (h2c key c) = true) -> (32 <= length kseed)%nat ->
  exists pp buf pk sk0 pop, py_default_param h2c = Some (pp, buf) /\ key_gen kseed pp = Ok (pk, sk0, pop)
  /\ pk_validate pk pop = true
  /\ forall l sk, snd (run m pp l sk0) = sk ->
     sk_validate m sk pk pp = Ok true /\ 1 <= sec_time sk < 2^32
     /\ (forall t msg seed, sec_time sk <= t < 2^32 ->
         (exists s sk', sign m t pp msg seed sk = (Ok s, sk') /\ sig_time s = t /\ verify m s pk pp msg = Ok true)
         \/ (sign m t pp msg seed sk = (Panic P_PRNG, sk) /\ breaks_at m pp kseed l seed))
     /\ (forall t msg seed, t < sec_time sk \/ 2^32 <= t -> sign m t pp msg seed sk = (Err E_TIME_STAMP, sk)).
Proof.
  intros E L m h2c kseed Hh Hs. unfold py_default_param.
  destruct (param_is_spec E L h2c PARAM_SEED 0 32 ltac:(lia)) as (buf & Hb & _).
  destruct (spec_param_ok E L h2c PARAM_SEED 0 32 Hh ltac:(lia)) as (Hpp & Hg & Hd & Hc & _).
  set (pp := spec_param h2c PARAM_SEED 0 32) in *.
  destruct (keygen_ok L m pp kseed Hpp ltac:(rewrite Hc; reflexivity) Hs) as (pk & sk0 & pop & Hk & _).
  exists pp, buf, pk, sk0, pop. split; [exact Hb|]. split; [exact Hk|].
  split; [apply (keygen_pop E L pp kseed pk sk0 pop Hpp Hg Hk)|]. intros l sk Hl.
  assert (Hr : reached m pp kseed l pk sk) by (exists sk0, pop; auto).
  pose proof (reached_reachable _ _ _ _ _ _ Hr) as Hr'.
  destruct (reachable_good L m pp pk sk Hpp Hr') as (x & _ & Epk & Hgd & Hcs).
  pose proof (gsk_time _ _ _ Hgd) as Ht. rewrite Hd in Ht. change (last_time 32) with (2^32 - 1) in Ht.
  split; [rewrite <- Hl; apply (history_valid E L m m pp kseed pk sk0 pop l Hpp Hk)|]. split; [lia|]. split.
  - intros t msg seed Hr1.
    pose proof (sign_cases L m pp x sk t msg seed Hpp Hcs Hgd) as H.
    assert (Hv : forall s, good_sig pp x t msg s -> verify m s pk pp msg = Ok true /\ sig_time s = t).
    { intros s Hgs. rewrite Epk. split; [apply (good_sig_verifies L m pp x t msg s); auto|]. destruct Hgs as (v & k & _ & -> ). reflexivity. }
    destruct (N.eqb_spec (sec_time sk) t) as [He|He].
    + destruct H as (s & H & Hgs). left. exists s, sk. split; [exact H|]. destruct (Hv s Hgs). auto.
    + unfold in_range in H. rewrite Hd in H. change (last_time 32) with (2^32 - 1) in H.
      replace (sec_time sk <? t) with true in H by lia. replace (t <=? 2^32 - 1) with true in H by lia.
      cbn [andb] in H. destruct H as [(s & sk' & H & Hgs & _)|[H _]].
      * left. exists s, sk'. split; [exact H|]. destruct (Hv s Hgs). auto.
      * right. split; [exact H|].
        apply (reached_panic L m m pp kseed l _ sk (OpSign t msg seed) P_PRNG Hpp ltac:(rewrite Hd; lia) Hr).
        cbn [step]. unfold sbind. rewrite H. reflexivity.
  - intros t msg seed Hr1. pose proof (sign_cases L m pp x sk t msg seed Hpp Hcs Hgd) as H.
    replace (sec_time sk =? t) with false in H by lia. unfold in_range in H. rewrite Hd in H. change (last_time 32) with (2^32 - 1) in H.
    replace ((sec_time sk <? t) && (t <=? 2^32 - 1))%bool with false in H by lia. exact H.
Qed.
Lemma param_seed_is_iv : PARAM_SEED = flat_map be8 SHA512_IV /\ (32 <= length PARAM_SEED)%nat.
Proof. split; [reflexivity|cbn; lia]. Qed.
Lemma param_infos_distinct : forall d,
  NoDup (str "H2G_h" :: map (fun i => str "H2G_h" ++ [N.of_nat i]) (seq 0 (d + 1))).
Proof.
  intros d. constructor.
  - intros H. apply in_map_iff in H as (i & H & _). apply (f_equal (@length N)) in H. rewrite app_length in H. cbn in H. lia.
  - apply FinFun.Injective_map_NoDup; [|apply seq_NoDup]. intros i j H. apply app_inv_head in H. injection H as H. lia.
Qed.
