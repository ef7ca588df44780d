(** Lemmas behind Properties_Prng.v. *)
From Coq Require Import String.
From Verif Require Import Base Env Hkdf Prng SpecPrng PrngFacts Time SpecTime SubKey SecretKey Keys Sig IO Serdes Api
  SpecKey SpecUpdate SpecSer IOFacts KeyFacts HistoryFacts KeyProps VerProps Sha512 Toy ToyRun.
Local Open Scope N_scope.

(** C40 *)
Lemma os2ip_value : forall l,
  ((length l <= 64)%nat -> os2ip_mod_p l = Ok (os2ip l mod fr_modulus))
  /\ ((64 < length l)%nat -> os2ip_mod_p l = Panic P_OS2IP).
Proof. intros l. split; [apply os2ip_mod_p_spec|apply os2ip_mod_p_long]. Qed.
Lemma os2ip_range : forall l x, os2ip_mod_p l = Ok x -> x < fr_modulus.
Proof.
  intros l x H. destruct (Nat.le_gt_cases (length l) 64) as [Hl|Hl].
  - rewrite os2ip_mod_p_spec in H by exact Hl. injection H as <-. apply N.mod_lt, fr_modulus_nz.
  - rewrite os2ip_mod_p_long in H by exact Hl. discriminate H.
Qed.
Lemma os2ip_leading_zeros : forall n l, (n + length l <= 64)%nat ->
  os2ip_mod_p (repeat 0 n ++ l) = os2ip_mod_p l.
Proof.
  intros n l H. rewrite !os2ip_mod_p_spec by (try rewrite app_length, repeat_length; lia). f_equal. f_equal.
  induction n as [|n IH]; [reflexivity|]. cbn [repeat app]. rewrite os2ip_cons, IH by lia. lia.
Qed.

(** C41 *)
Lemma prng_functions : forall H, (forall b, length (H b) = 64%nat) -> forall g seed salt info,
  prng_init H seed salt = rfc_hmac H salt seed
  /\ sample H g info = Ok (os2ip (hkdf_T1 H g info) mod fr_modulus)
  /\ sample_then_update H g info = Ok (os2ip (hkdf_T1 H g info) mod fr_modulus, hkdf_T2 H g info)
  /\ rerandomize H g seed info = Ok (rfc_hmac H (hkdf_T2 H g info) (hkdf_T1 H g info ++ seed)).
Proof.
  intros H HH g seed salt info. split; [apply prng_init_spec; exact HH|]. split; [apply sample_spec; exact HH|].
  split; [apply sample_then_update_spec; exact HH|apply rerandomize_spec; exact HH].
Qed.
Lemma prng_states : forall H, (forall b, length (H b) = 64%nat) -> forall g seed salt info,
  length (prng_init H seed salt) = 64%nat
  /\ (forall x, sample H g info = Ok x -> x < fr_modulus)
  /\ (forall x g', sample_then_update H g info = Ok (x, g') -> x < fr_modulus /\ length g' = 64%nat)
  /\ (forall g', rerandomize H g seed info = Ok g' -> length g' = 64%nat).
Proof.
  intros H HH g seed salt info. destruct (prng_functions H HH g seed salt info) as (-> & -> & -> & ->).
  split; [apply rfc_hmac_len; exact HH|]. split; [intros x Hx; injection Hx as <-; apply N.mod_lt, fr_modulus_nz|].
  split; [intros x g' Hx; injection Hx as <- <-; split; [apply N.mod_lt, fr_modulus_nz|apply T2_len; exact HH]|].
  intros g' Hx. injection Hx as <-. apply rfc_hmac_len; exact HH.
Qed.
Lemma reachable_prng : forall (E : env) (L : env_laws E) m (pp : pubparam E) pk sk,
  pp_ok pp -> reachable m pp pk sk -> length (sec_prng sk) = 64%nat /\ are_bytes (sec_prng sk).
Proof.
  intros E L m pp pk sk Hpp Hr. destruct (reachable_good L m pp pk sk Hpp Hr) as (x & _ & _ & Hg & _). apply Hg.
Qed.

(** C42 *)
Lemma time4_inj t t' : t < 2^32 -> t' < 2^32 -> time4 t = time4 t' -> t = t'.
Proof.
  intros H H' Ht. change (time4 t) with (be4 t) in Ht. change (time4 t') with (be4 t') in Ht.
  rewrite <- (from_be4_be4 t H), <- (from_be4_be4 t' H'), Ht. reflexivity.
Qed.
Lemma app_time_inj (a b : bytes) t t' : a ++ time4 t = b ++ time4 t' -> a = b /\ time4 t = time4 t'.
Proof.
  intros H. assert (Hl : length a = length b).
  { apply (f_equal (@length N)) in H. rewrite !app_length in H. cbn [length time4] in H. lia. }
  revert b Hl H. induction a as [|x a IH]; intros [|y b] Hl H; cbn [length] in Hl; try discriminate Hl; [split; [reflexivity|exact H]|].
  cbn [app] in H. injection H as -> H. destruct (IH b ltac:(lia) H) as [-> Ht]. split; [reflexivity|exact Ht].
Qed.
Lemma infos_distinct : forall p q, short_time p -> short_time q -> info_of p = info_of q -> p = q.
Proof.
  intros p q Hp Hq H. destruct p as [| | |t|msg t], q as [| | |t'|msg' t']; try reflexivity; try discriminate H.
  - cbn [info_of] in H. apply app_time_inj in H as [_ H]. f_equal. apply time4_inj; assumption.
  - cbn [info_of] in H. rewrite !app_assoc in H. apply app_time_inj in H as [H Ht].
    apply app_inv_head in H as ->. f_equal. apply time4_inj; assumption.
Qed.
Lemma info_first_byte_free : forall p q c, short_time p -> short_time q -> info_of p ++ [c] = info_of q ++ [c] -> p = q.
Proof. intros p q c Hp Hq H. apply infos_distinct; auto. apply app_inj_tail in H. tauto. Qed.
Lemma long_times_collide : exists p q, p <> q /\ info_of p = info_of q.
Proof. exists (Signing [] 1), (Signing [] (2^32 + 1)). split; [intros H; discriminate H|reflexivity]. Qed.
Lemma hash_inputs_distinct : forall cs cs' msg msg',
  DOM_SEP_HASH_TO_MSG ++ cs :: msg = DOM_SEP_HASH_TO_MSG ++ cs' :: msg' -> cs = cs' /\ msg = msg'.
Proof. intros cs cs' msg msg' H. apply app_inv_head in H. injection H as -> ->. auto. Qed.

(** The infos the code uses are these. *)
Lemma keygen_infos : forall (E : env) (L : env_laws E) (pp : pubparam E) seed pk sk pop,
  pp_ok pp -> key_gen seed pp = Ok (pk, sk, pop) ->
  let H := sha512 E in
  let g0 := rfc_hmac H (str "Pixel master key" ++ [pp_cs pp]) seed in
  let g1 := hkdf_T2 H g0 (info_of KeyInit) in
  let x := os2ip (hkdf_T1 H g0 (info_of KeyInit)) mod fr_modulus in
  let r := os2ip (hkdf_T1 H g1 (info_of SkInit)) mod fr_modulus in
  pk_pk pk = g2_mul x (pp_g2 pp) /\ sec_ssk sk = [honest_ssk pp x 1 [] r]
  /\ sec_prng sk = hkdf_T2 H g1 (info_of SkInit).
Proof.
  intros E L pp seed pk sk pop Hpp H. cbv zeta. destruct (Nat.lt_ge_cases (length seed) 32) as [Hs|Hs].
  { rewrite key_gen_short in H by exact Hs. discriminate. }
  destruct (valid_cs (pp_cs pp)) eqn:Hcs.
  2:{ rewrite key_gen_bad_cs in H by auto. discriminate. }
  rewrite (key_gen_spec L) in H by auto. injection H as <- <- <-. cbn [pk_pk sec_ssk sec_prng].
  split; [reflexivity|]. split; reflexivity.
Qed.
Lemma signing_info : forall (E : env) (L : env_laws E) m m' (pp : pubparam E) pk sk msg,
  pp_ok pp -> reachable m pp pk sk ->
  let t := sec_time sk in
  exists x v r rest, pk = PubKey (pp_cs pp) (g2_mul x (pp_g2 pp)) /\ node_at (pp_depth pp) t v
    /\ sec_ssk sk = honest_ssk pp x t v r :: rest
    /\ sign_present m' t pp msg sk
       = (Ok (honest_sig pp x t v (msg_scalar pp msg)
                (r + os2ip (hkdf_T1 (sha512 E) (sec_prng sk) (info_of (Signing msg t))) mod fr_modulus)), sk).
Proof.
  intros E L m m' pp pk sk msg Hpp Hr. cbv zeta.
  destruct (signature_value E L m m' pp pk sk msg Hpp Hr) as (x & v & r & rest & H1 & H2 & H3 & H4).
  exists x, v, r, rest. split; [exact H1|]. split; [exact H2|]. split; [exact H3|]. rewrite H4.
  unfold spec_scalar, sign_info. rewrite time_bytes_be4. reflexivity.
Qed.
Lemma update_infos : forall (E : env) (sk : seckey E) seed i g,
  spec_reseed sk seed = rfc_hmac (sha512 E) (hkdf_T2 (sha512 E) (sec_prng sk) (info_of (Rerandomize (sec_time sk))))
      (hkdf_T1 (sha512 E) (sec_prng sk) (info_of (Rerandomize (sec_time sk))) ++ seed)
  /\ draws (sha512 E) (S i) g = hkdf_T2 (sha512 E) (draws (sha512 E) i g) (info_of Update)
  /\ added (sha512 E) g (S i) = os2ip (hkdf_T1 (sha512 E) (draws (sha512 E) i g) (info_of Update)) mod fr_modulus.
Proof.
  intros E sk seed i g. split; [|split; reflexivity]. unfold spec_reseed, spec_rerandomize. rewrite time_bytes_be4. reflexivity.
Qed.

(** Differences from spec.md. *)
Lemma rerandomize_not_spec_md : exists H g seed info, (forall b, length (H b) = 64%nat)
  /\ rerandomize H g seed info <> Ok (spec_md_rerandomize H g seed (str "Pixel secret key rerandomize extract") info).
Proof.
  exists sha512_real, (repeat 0 64), (str "seed"), (str "info"). split; [apply sha512_real_len|]. intros Hc.
  assert (Hb : match rerandomize sha512_real (repeat 0 64) (str "seed") (str "info") with
               | Ok x => bytes_eqb x (spec_md_rerandomize sha512_real (repeat 0 64) (str "seed")
                                       (str "Pixel secret key rerandomize extract") (str "info"))
               | _ => true end = false) by vm_cast_no_check (eq_refl false).
  rewrite Hc in Hb. rewrite (proj2 (bytes_eqb_eq _ _) eq_refl) in Hb. discriminate Hb.
Qed.
Lemma keygen_not_spec_md : exists (E : env) (pp : pubparam E) seed pk sk pop,
  env_laws E /\ pp_ok pp /\ key_gen seed pp = Ok (pk, sk, pop)
  /\ pk_pk pk <> g2_mul (os2ip (hkdf_T1 (sha512 E) (rfc_hmac (sha512 E) (str "Pixel master key" ++ [pp_cs pp]) seed)
                           (str "Pixel master key")) mod fr_modulus) (pp_g2 pp).
Proof.
  exists toy, tpp4, tseed, tpk4, tsk4, tpop4. split; [exact toy_laws|]. split; [exact tpp4_ok|]. split; [exact tkeygen|].
  intros H. apply (l2_eqb toy toy_laws) in H. revert H.
  assert (Hb : @g2_eqb toy (pk_pk tpk4) (g2_mul (os2ip (hkdf_T1 (sha512 toy) (rfc_hmac (sha512 toy) (str "Pixel master key" ++ [pp_cs tpp4]) tseed)
                           (str "Pixel master key")) mod fr_modulus) (pp_g2 tpp4)) = false) by vm_cast_no_check (eq_refl false).
  rewrite Hb. intros H. discriminate H.
Qed.
