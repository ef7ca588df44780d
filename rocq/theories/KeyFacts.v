(** Key generation, and what update, sign and verify do on good keys. *)
From Coq Require Import Sorting.Sorted.
From Verif Require Import Base Env NMod GroupFacts Time SpecTime TimeFacts Hkdf Prng SpecPrng PrngFacts
  SubKey SecretKey Keys Sig SpecKey SubKeyFacts SpecUpdate UpdateFacts.
From Coq Require Import ZifyBool ZifyNat ZifyN.
Local Open Scope N_scope.
Local Arguments N.add : simpl never.
Local Arguments N.mul : simpl never.
Local Arguments N.sub : simpl never.
Local Arguments pow2 : simpl never.

Lemma hmac_bytes {E} (L : env_laws E) k b : are_bytes (rfc_hmac (sha512 E) k b).
Proof. unfold rfc_hmac. apply (lh_bytes E L). Qed.
Definition prng_ok (g : prng) : Prop := length g = 64%nat /\ are_bytes g.
Lemma hmac_ok {E} (L : env_laws E) k b : prng_ok (rfc_hmac (sha512 E) k b).
Proof. split; [apply rfc_hmac_len, (hash_len_env L)|apply (hmac_bytes L)]. Qed.
Lemma spec_next_ok {E} (L : env_laws E) g i : prng_ok (spec_next (sha512 E) g i).
Proof. apply (hmac_ok L). Qed.
Lemma spec_reseed_ok {E} (L : env_laws E) sk seed : prng_ok (@spec_reseed E sk seed).
Proof. apply (hmac_ok L). Qed.

(** * Key generation *)
Definition spec_master {E} (pp : pubparam E) (seed : bytes) : prng :=
  rfc_hmac (sha512 E) (DOM_SEP_MASTER_KEY ++ [pp_cs pp]) seed.
Definition spec_x {E} (pp : pubparam E) (seed : bytes) : N :=
  spec_scalar (sha512 E) (spec_master pp seed) KEY_INIT_INFO.
Definition spec_g1 {E} (pp : pubparam E) (seed : bytes) : prng :=
  spec_next (sha512 E) (spec_master pp seed) KEY_INIT_INFO.
Definition SK_INIT_INFO : bytes := DOM_SEP_SK_INIT ++ [0; 0; 0; 1].
Definition spec_r {E} (pp : pubparam E) (seed : bytes) : N :=
  spec_scalar (sha512 E) (spec_g1 pp seed) SK_INIT_INFO.
Definition spec_g2 {E} (pp : pubparam E) (seed : bytes) : prng :=
  spec_next (sha512 E) (spec_g1 pp seed) SK_INIT_INFO.

Lemma key_gen_short {E} (pp : pubparam E) seed :
  (length seed < 32)%nat -> key_gen seed pp = Err E_SEED_TOO_SHORT.
Proof. intros H. unfold key_gen. replace (length seed <? 32)%nat with true by lia. reflexivity. Qed.

Lemma key_gen_bad_cs {E} (pp : pubparam E) seed :
  (32 <= length seed)%nat -> valid_cs (pp_cs pp) = false -> key_gen seed pp = Err E_CIPHERSUITE.
Proof.
  intros H Hcs. unfold key_gen, master_key_gen. replace (length seed <? 32)%nat with false by lia.
  rewrite Hcs. reflexivity.
Qed.

Lemma master_key_gen_spec {E} (L : env_laws E) (pp : pubparam E) seed :
  (32 <= length seed)%nat -> valid_cs (pp_cs pp) = true ->
  master_key_gen seed pp
  = Ok (g2_mul (spec_x pp seed) (pp_g2 pp), g1_mul (spec_x pp seed) (pp_h pp),
        bls_sign (spec_x pp seed) (pop_msg (g2_mul (spec_x pp seed) (pp_g2 pp))) [pp_cs pp],
        spec_g1 pp seed).
Proof.
  intros H Hcs. unfold master_key_gen. replace (length seed <? 32)%nat with false by lia.
  rewrite Hcs. cbn [negb]. rewrite prng_init_spec by apply (hash_len_env L).
  rewrite sample_then_update_spec by apply (hash_len_env L). reflexivity.
Qed.

Lemma key_gen_head {E} (L : env_laws E) (pp : pubparam E) seed h0 hs :
  (32 <= length seed)%nat -> valid_cs (pp_cs pp) = true -> pp_hlist pp = h0 :: hs ->
  exists s, key_gen seed pp
  = Ok (PubKey (pp_cs pp) (g2_mul (spec_x pp seed) (pp_g2 pp)),
        SecKey (pp_cs pp) 1 [s] (spec_g2 pp seed),
        Pop (pp_cs pp) (bls_sign (spec_x pp seed)
              (pop_msg (g2_mul (spec_x pp seed) (pp_g2 pp))) [pp_cs pp]))
    /\ ssk_init pp (g1_mul (spec_x pp seed) (pp_h pp)) (spec_r pp seed) = Ok s.
Proof.
  intros H Hcs Hh. unfold key_gen. replace (length seed <? 32)%nat with false by lia.
  rewrite (master_key_gen_spec L) by auto. cbn [bind].
  unfold pk_init, sk_init. rewrite Hcs. cbn [negb bind].
  change (DOM_SEP_SK_INIT ++ [0; 0; 0; 1]) with SK_INIT_INFO.
  rewrite sample_then_update_spec by apply (hash_len_env L). cbn [bind].
  unfold ssk_init. rewrite Hh. cbn [nth_res nth_error bind]. eexists. split; reflexivity.
Qed.

Lemma key_gen_spec {E} (L : env_laws E) (pp : pubparam E) seed :
  (32 <= length seed)%nat -> valid_cs (pp_cs pp) = true -> pp_ok pp ->
  key_gen seed pp
  = Ok (PubKey (pp_cs pp) (g2_mul (spec_x pp seed) (pp_g2 pp)),
        SecKey (pp_cs pp) 1 [honest_ssk pp (spec_x pp seed) 1 [] (spec_r pp seed)] (spec_g2 pp seed),
        Pop (pp_cs pp) (bls_sign (spec_x pp seed)
              (pop_msg (g2_mul (spec_x pp seed) (pp_g2 pp))) [pp_cs pp])).
Proof.
  intros H Hcs Hpp. pose proof (ppo_len pp Hpp).
  destruct (pp_hlist pp) as [|h0 hs] eqn:Eh; [cbn [length] in *; lia|].
  destruct (key_gen_head L pp seed h0 hs H Hcs Eh) as (s & -> & Hs).
  rewrite (ssk_init_honest L) in Hs by exact Hpp. injection Hs as <-. reflexivity.
Qed.

Lemma root_node d : (1 <= d)%nat -> node_at d 1 [].
Proof. intros H. apply node_at_ptime. split; [apply valid_nil; lia|]. destruct d; reflexivity. Qed.

Lemma root_tiling d : (1 <= d)%nat -> tiling d 1 [1].
Proof.
  intros H. apply tile_cons with (v := []); [apply root_node, H|]. cbn [length].
  rewrite Nat.sub_0_r. pose proof (pow2_pos d). replace (1 + (pow2 d - 1)) with (pow2 d) by lia. constructor.
Qed.

Lemma last_time_ge1 d : (1 <= d)%nat -> 1 <= last_time d.
Proof. intros H. unfold last_time. pose proof (pow2_le 1 d H). change (pow2 1) with 2 in *. lia. Qed.

Lemma key_gen_good {E} (L : env_laws E) (pp : pubparam E) seed pk sk pop :
  pp_ok pp -> key_gen seed pp = Ok (pk, sk, pop) ->
  exists x, x < fr_modulus /\ pk = PubKey (pp_cs pp) (g2_mul x (pp_g2 pp)) /\ good_sk pp x sk /\ sec_time sk = 1
            /\ valid_cs (pp_cs pp) = true.
Proof.
  intros Hpp H. destruct (Nat.lt_ge_cases (length seed) 32) as [Hs|Hs].
  { rewrite key_gen_short in H by exact Hs. discriminate. }
  destruct (valid_cs (pp_cs pp)) eqn:Hcs.
  2:{ rewrite key_gen_bad_cs in H by auto. discriminate. }
  rewrite (key_gen_spec L) in H by auto. injection H as <- <- <-.
  pose proof (ppo_depth pp Hpp) as Hd.
  exists (spec_x pp seed). split; [apply spec_scalar_lt|]. split; [reflexivity|]. split; [|auto].
  constructor; cbn [sec_cs sec_time sec_ssk sec_prng map honest_ssk sk_t].
  - reflexivity.
  - split; [lia|]. apply last_time_ge1; lia.
  - apply root_tiling; lia.
  - constructor; [|constructor]. exists [], (spec_r pp seed). split; [apply root_node; lia|reflexivity].
  - apply (spec_next_ok L).
Qed.

(** * update *)
Lemma spec_fresh_props {E} (L : env_laws E) (pp : pubparam E) x r old : forall l first g ks g',
  Forall (fun tv => node_at (pp_depth pp) (tv_time tv) (tv_vec tv)) l -> prng_ok g ->
  spec_fresh pp x r old first l g = Some (ks, g') ->
  map sk_t ks = map tv_time l /\ Forall (honest pp x) ks /\ prng_ok g'.
Proof.
  induction l as [|tv l IH]; intros first g ks g' Hn Hg Hf; cbn [spec_fresh] in Hf.
  - injection Hf as <- <-. auto.
  - inversion Hn; subst. destruct first.
    + destruct (spec_fresh pp x r old false l g) as [[ks0 g0]|] eqn:E0; [|discriminate].
      injection Hf as <- <-. destruct (IH _ _ _ _ H2 Hg E0) as (Hm & Hh & Hg0).
      cbn [map honest_ssk sk_t]. split; [f_equal; exact Hm|]. split; [|exact Hg0].
      constructor; [|exact Hh]. exists (tv_vec tv), r. split; [assumption|reflexivity].
    + destruct (prng_eqb _ old); [discriminate|].
      destruct (spec_fresh pp x r old false l _) as [[ks0 g0]|] eqn:E0; [|discriminate].
      injection Hf as <- <-. destruct (IH _ _ _ _ H2 (spec_next_ok L _ _) E0) as (Hm & Hh & Hg0).
      cbn [map honest_ssk sk_t]. split; [f_equal; exact Hm|]. split; [|exact Hg0].
      constructor; [|exact Hh]. eexists (tv_vec tv), _. split; [assumption|reflexivity].
Qed.

Lemma update_time_err {E} m (pp : pubparam E) sk tar seed :
  (1 <= pp_depth pp < 64)%nat -> sec_cs sk = pp_cs pp ->
  tar <= sec_time sk \/ last_time (pp_depth pp) < tar ->
  update m pp tar seed sk = (Err E_TIME_STAMP, sk).
Proof.
  intros Hd Hcs Ht. unfold update, sbind, sget, slift, sput. rewrite Hcs, N.eqb_refl. cbn [negb].
  pose proof (max_time_ok m (pp_depth pp) Hd) as Hmax. destruct (shl64 m (pp_depth pp)) as [p| |]; try discriminate.
  cbn [bind] in Hmax. rewrite Hmax.
  replace ((tar <=? sec_time sk) || (last_time (pp_depth pp) <? tar)) with true by lia. reflexivity.
Qed.

Lemma update_cs_err {E} m (pp : pubparam E) sk tar seed :
  sec_cs sk <> pp_cs pp -> update m pp tar seed sk = (Err E_CIPHERSUITE, sk).
Proof.
  intros H. unfold update, sbind, sget, slift. replace (sec_cs sk =? pp_cs pp) with false by lia. reflexivity.
Qed.

Lemma split_honest {E} (pp : pubparam E) x l tar pre ta va r post :
  Forall (honest pp x) l -> split_at pp x l tar pre ta va r post ->
  honest pp x (honest_ssk pp x ta va r) /\ Forall (honest pp x) post.
Proof.
  intros Hh [-> Hn _ _ _ _]. apply Forall_app in Hh as [_ Hh]. inversion Hh; subst. auto.
Qed.

Lemma update_good_ok {E} (L : env_laws E) m (pp : pubparam E) x sk tar seed :
  pp_ok pp -> good_sk pp x sk -> sec_time sk < tar <= last_time (pp_depth pp) ->
  (exists sk', update m pp tar seed sk = (Ok tt, sk') /\ good_sk pp x sk' /\ sec_time sk' = tar)
  \/ update m pp tar seed sk = (Panic P_PRNG, sk).
Proof.
  intros Hpp Hg Ht. destruct (update_good L m pp x sk tar seed Hpp Hg Ht)
    as (pre & ta & va & r & post & Hsp & Hcase).
  pose proof (split_honest _ _ _ _ _ _ _ _ _ (gsk_honest _ _ _ Hg) Hsp) as [Hha Hhp].
  destruct Hsp as [Hl Hn Hc Hpre Htil Hpost].
  pose proof (gsk_time _ _ _ Hg). destruct Hcase as [[-> Hu]|[Hlt (tv & gpre & gpost & Htv & Hgl & _ & Ht' & _ & Hnodes & Hu)]].
  - left. eexists. split; [exact Hu|]. split; [|reflexivity].
    constructor; cbn [sec_cs sec_time sec_ssk sec_prng].
    + apply Hg.
    + lia.
    + cbn [map honest_ssk sk_t]. econstructor; [exact Hn|exact Htil].
    + constructor; assumption.
    + apply (spec_reseed_ok L).
  - destruct (spec_fresh pp x r (sec_prng sk) true gpre (spec_reseed sk seed)) as [[ks g']|] eqn:Ef.
    2:{ right. exact Hu. }
    left. eexists. split; [exact Hu|]. split; [|reflexivity].
    apply (spec_fresh_props L) in Ef as (Hm & Hh & Hg'); [| |apply (spec_reseed_ok L)].
    2:{ eapply Forall_impl; [|exact Hnodes]. cbn. tauto. }
    constructor; cbn [sec_cs sec_time sec_ssk sec_prng].
    + apply Hg.
    + lia.
    + rewrite map_app, Hm. exact Ht'.
    + apply Forall_app. split; assumption.
    + exact Hg'.
Qed.

(** A failed or panicking update leaves any key unchanged. *)
Lemma update_atomic {E} m (pp : pubparam E) sk tar seed :
  match update m pp tar seed sk with
  | (Ok _, _) => True
  | (_, sk') => sk' = sk
  end.
Proof.
  unfold update, sbind, sget, slift, sput.
  destruct (negb (sec_cs sk =? pp_cs pp)); [reflexivity|].
  destruct (shl64 m (pp_depth pp)); try reflexivity.
  destruct (sub64 m a 1); try reflexivity.
  destruct ((tar <=? sec_time sk) || (a0 <? tar)); [reflexivity|].
  destruct (find_ancestor sk tar); try reflexivity.
  destruct (rerandomize _ _ _ _); try reflexivity.
  destruct (drop_until a1 (sec_ssk sk)) as [l| |]; try reflexivity.
  destruct l; [reflexivity|]. destruct (a1 =? tar); [exact I|].
  destruct (tv_init m tar (pp_depth pp)); try reflexivity.
  destruct (gamma_list m a3 (pp_depth pp)); try reflexivity.
  destruct (update_loop _ _ _ _ _ _ _) as [[l' g']| |]; try reflexivity.
  destruct (remove_at 0 l') as [l''| |]; try reflexivity.
  destruct (nth_res l'' 0); try reflexivity; exact I.
Qed.

(** * sign *)
Lemma msg_scalar_lt {E} (pp : pubparam E) msg : msg_scalar pp msg < fr_modulus.
Proof. apply N.mod_lt, fr_modulus_nz. Qed.
Lemma hash_msg_spec {E} (L : env_laws E) (pp : pubparam E) msg :
  hash_msg_into_fr (sha512 E) msg (pp_cs pp) = Ok (msg_scalar pp msg).
Proof.
  unfold hash_msg_into_fr. rewrite os2ip_mod_p_spec by (rewrite (lh_len E L); lia). reflexivity.
Qed.

Lemma last_hv {E} (pp : pubparam E) x t v r :
  pp_ok pp -> (length v < pp_depth pp)%nat ->
  last_hvector_coeff (honest_ssk pp x t v r)
  = Ok (g1_mul r (nth (pp_depth pp) (pp_hlist pp) g1_zero)).
Proof.
  intros Hpp Hl. pose proof (ppo_len pp Hpp). unfold last_hvector_coeff.
  pose proof (honest_hvec_len pp x t v r Hpp) as Hlen.
  destruct (sk_hvec (honest_ssk pp x t v r)) as [|a l] eqn:Ehv; [cbn [length] in Hlen; lia|].
  rewrite <- Ehv. rewrite <- Ehv in Hlen.
  rewrite (nth_res_ok _ _ (g1_mul r g1_zero)) by lia. f_equal. rewrite Hlen.
  cbn [honest_ssk sk_hvec]. rewrite map_nth. f_equal.
  set (k := length v) in *. set (d := pp_depth pp) in *.
  rewrite <- (firstn_skipn (d - k) (skipn (k + 1) (pp_hlist pp))) at 1.
  assert (Hf : length (firstn (d - k) (skipn (k + 1) (pp_hlist pp))) = (d - k)%nat)
    by (rewrite firstn_length, skipn_length; lia).
  rewrite firstn_app_len by exact Hf.
  assert (Hn1 : nth (d - k - 1) (firstn (d - k) (skipn (k + 1) (pp_hlist pp))) g1_zero
               = nth (d - k - 1) (skipn (k + 1) (pp_hlist pp)) g1_zero).
  { rewrite <- (firstn_skipn (d - k) (skipn (k + 1) (pp_hlist pp))) at 2.
    rewrite app_nth1; [reflexivity|]. rewrite Hf. lia. }
  rewrite Hn1.
  rewrite <- (firstn_skipn (k + 1) (pp_hlist pp)) at 2.
  rewrite app_nth2; rewrite firstn_length; [|lia].
  f_equal. lia.
Qed.

Lemma sign_fr_honest {E} (L : env_laws E) m (pp : pubparam E) x sk ssks v r M k :
  pp_ok pp -> node_at (pp_depth pp) (sec_time sk) v ->
  sec_ssk sk = honest_ssk pp x (sec_time sk) v r :: ssks ->
  sign_fr m sk (sec_time sk) pp M k = Ok (honest_sig pp x (sec_time sk) v M (r + k)).
Proof.
  intros Hpp Hn Hs. pose proof (ppo_depth pp Hpp) as Hd. pose proof (ppo_len pp Hpp).
  destruct (node_at_turn _ _ _ Hn) as [Ht Hl].
  unfold sign_fr. rewrite N.eqb_refl. cbn [negb]. unfold first_ssk. rewrite Hs. cbn [bind].
  unfold ssk_time_vec. cbn [honest_ssk sk_t sk_g2r sk_hpoly].
  rewrite (proj2 (tv_init_ok m (pp_depth pp) _ v ltac:(lia)) Hn). cbn [bind tv_vec].
  rewrite (nth_res_ok (pp_hlist pp) 0 g1_zero) by lia. cbn [bind].
  rewrite (poly_loop_node L) by auto. cbn [bind].
  rewrite (nth_res_ok (pp_hlist pp) _ g1_zero) by lia. cbn [bind].
  fold (honest_ssk pp x (sec_time sk) v r). rewrite last_hv by auto. cbn [bind].
  unfold honest_sig, sig_val. f_equal. f_equal; [g2_solve L|g1_solve L].
Qed.

Lemma good_sk_head {E} (pp : pubparam E) x sk :
  good_sk pp x sk -> exists v r ssks,
  node_at (pp_depth pp) (sec_time sk) v /\ sec_ssk sk = honest_ssk pp x (sec_time sk) v r :: ssks.
Proof.
  intros [_ Ht Htil Hh _]. destruct (sec_ssk sk) as [|s l] eqn:Es.
  { apply tiling_nil_inv in Htil. unfold last_time in Ht. lia. }
  cbn [map] in Htil. apply tiling_inv in Htil as [He _]. inversion Hh as [|? ? (v & r & Hn & Hs) _]; subst.
  exists v, r, l. rewrite He. split; [exact Hn|]. rewrite <- Hs. reflexivity.
Qed.

Lemma sign_bytes_good {E} (L : env_laws E) m (pp : pubparam E) x sk msg :
  pp_ok pp -> valid_cs (pp_cs pp) = true -> good_sk pp x sk ->
  exists v r, node_at (pp_depth pp) (sec_time sk) v
    /\ (exists ssks, sec_ssk sk = honest_ssk pp x (sec_time sk) v r :: ssks)
    /\ sign_bytes m sk (sec_time sk) pp msg
       = Ok (honest_sig pp x (sec_time sk) v (msg_scalar pp msg)
               (r + spec_scalar (sha512 E) (sec_prng sk) (sign_info msg (sec_time sk)))).
Proof.
  intros Hpp Hcs Hg. destruct (good_sk_head pp x sk Hg) as (v & r & ssks & Hn & Hs).
  exists v, r. split; [exact Hn|]. split; [eauto|].
  unfold sign_bytes. rewrite Hcs, (gsk_cs _ _ _ Hg), !N.eqb_refl. cbn [negb].
  rewrite sample_spec by apply (hash_len_env L). cbn [bind].
  rewrite (hash_msg_spec L). cbn [bind].
  rewrite (sign_fr_honest L m pp x sk ssks v r) by auto. reflexivity.
Qed.

(** * verify *)
Lemma verify_fr_spec {E} (L : env_laws E) m (pp : pubparam E) (s : signature E) pk M :
  pp_ok pp -> g2_insub (pk_pk pk) = true ->
  (verify_fr m s pk pp M = Ok true <->
   g2_insub (sig_1 s) = true /\ g1_insub (sig_2 s) = true
   /\ exists v, node_at (pp_depth pp) (sig_time s) v
      /\ pairing (pp_g2 pp) (sig_2 s)
         = gt_mul (pairing (sig_1 s) (sig_val pp v M)) (pairing (pk_pk pk) (pp_h pp))).
Proof.
  intros Hpp Hpk. pose proof (ppo_depth pp Hpp) as Hd. pose proof (ppo_len pp Hpp).
  unfold verify_fr.
  destruct (g2_insub (sig_1 s)) eqn:H1; destruct (g1_insub (sig_2 s)) eqn:H2; cbn [negb orb];
    try (split; [discriminate|intros (? & ? & _); discriminate]).
  rewrite (nth_res_ok (pp_hlist pp) 0 g1_zero) by lia. cbn [bind].
  destruct (tv_init m (sig_time s) (pp_depth pp)) as [tv|e|p] eqn:Etv.
  - apply tv_init_node in Etv as [_ Hn]; [|lia]. destruct (node_at_turn _ _ _ Hn) as [Ht Hl].
    rewrite (poly_loop_node L) by auto. cbn [bind].
    rewrite (nth_res_ok (pp_hlist pp) _ g1_zero) by lia. cbn [bind].
    fold (sig_val pp (tv_vec tv) M).
    assert (Hiff : pairing_check [(g2_neg (pp_g2 pp), sig_2 s); (sig_1 s, sig_val pp (tv_vec tv) M); (pk_pk pk, pp_h pp)] = true
      <-> pairing (pp_g2 pp) (sig_2 s) = gt_mul (pairing (sig_1 s) (sig_val pp (tv_vec tv) M)) (pairing (pk_pk pk) (pp_h pp))).
    { apply (pairing_check3 L); auto using pairing_check_spec, (sig_val_insub L); apply Hpp. }
    split.
    + intros [= Hc]. split; [reflexivity|]. split; [reflexivity|]. exists (tv_vec tv). split; [exact Hn|]. apply Hiff, Hc.
    + intros (_ & _ & v & Hn' & He). rewrite (node_at_fun _ _ _ _ Hn' Hn) in He. f_equal. apply Hiff, He.
  - split; [discriminate|]. intros (_ & _ & v & Hn & _).
    rewrite (proj2 (tv_init_ok m (pp_depth pp) _ v ltac:(lia)) Hn) in Etv. discriminate.
  - split; [discriminate|]. intros (_ & _ & v & Hn & _).
    rewrite (proj2 (tv_init_ok m (pp_depth pp) _ v ltac:(lia)) Hn) in Etv. discriminate.
Qed.

Lemma verify_fr_no_panic {E} (L : env_laws E) m (pp : pubparam E) (s : signature E) pk M :
  pp_ok pp -> exists b, verify_fr m s pk pp M = Ok b.
Proof.
  intros Hpp. pose proof (ppo_depth pp Hpp) as Hd. pose proof (ppo_len pp Hpp).
  unfold verify_fr.
  destruct (negb (g2_insub (sig_1 s)) || negb (g1_insub (sig_2 s))); [eauto|].
  rewrite (nth_res_ok (pp_hlist pp) 0 g1_zero) by lia. cbn [bind].
  destruct (tv_init m (sig_time s) (pp_depth pp)) as [tv|e|p] eqn:Etv; [|eauto|].
  - apply tv_init_node in Etv as [_ Hn]; [|lia]. destruct (node_at_turn _ _ _ Hn) as [Ht Hl].
    rewrite (poly_loop_node L) by auto. cbn [bind].
    rewrite (nth_res_ok (pp_hlist pp) _ g1_zero) by lia. cbn [bind]. eauto.
  - unfold tv_init in Etv. destruct (time_to_vec m (sig_time s) (pp_depth pp)) eqn:E2; try discriminate.
    exfalso. exact (time_to_vec_no_panic m (pp_depth pp) _ p0 ltac:(lia) E2).
Qed.

Lemma verify_no_panic {E} (L : env_laws E) m (pp : pubparam E) (s : signature E) pk msg :
  pp_ok pp -> exists b, verify m s pk pp msg = Ok b.
Proof.
  intros Hpp. unfold verify. destruct (negb (valid_cs (pp_cs pp))); [eauto|].
  destruct (negb (sig_cs s =? pp_cs pp)); [eauto|].
  rewrite (hash_msg_spec L). cbn [bind]. apply (verify_fr_no_panic L); exact Hpp.
Qed.

Lemma verify_spec {E} (L : env_laws E) m (pp : pubparam E) (s : signature E) pk msg :
  pp_ok pp -> g2_insub (pk_pk pk) = true ->
  (verify m s pk pp msg = Ok true <->
   valid_cs (pp_cs pp) = true /\ sig_cs s = pp_cs pp
   /\ g2_insub (sig_1 s) = true /\ g1_insub (sig_2 s) = true
   /\ exists v, node_at (pp_depth pp) (sig_time s) v
      /\ pairing (pp_g2 pp) (sig_2 s)
         = gt_mul (pairing (sig_1 s) (sig_val pp v (msg_scalar pp msg))) (pairing (pk_pk pk) (pp_h pp))).
Proof.
  intros Hpp Hpk. unfold verify. destruct (valid_cs (pp_cs pp)); cbn [negb].
  2:{ split; [discriminate|intros (? & _); discriminate]. }
  destruct (N.eqb_spec (sig_cs s) (pp_cs pp)) as [He|He]; cbn [negb].
  2:{ split; [discriminate|intros (_ & ? & _); contradiction]. }
  rewrite (hash_msg_spec L). cbn [bind].
  rewrite (verify_fr_spec L) by auto. tauto.
Qed.

Lemma verify_honest {E} (L : env_laws E) m (pp : pubparam E) x t v s msg cs :
  pp_ok pp -> valid_cs (pp_cs pp) = true -> node_at (pp_depth pp) t v ->
  verify m (honest_sig pp x t v (msg_scalar pp msg) s) (PubKey cs (g2_mul x (pp_g2 pp))) pp msg = Ok true.
Proof.
  intros Hpp Hcs Hn. pose proof (ppo_g2 pp Hpp). pose proof (ppo_h pp Hpp).
  pose proof (sig_val_insub L pp v (msg_scalar pp msg) Hpp).
  apply (verify_spec L); auto.
  { apply (g2_mul_insub L); assumption. }
  cbn [honest_sig sig_cs sig_time sig_1 sig_2 pk_pk].
  repeat split; auto using (g2_mul_insub L), (g1_mul_insub L), (l1_sub_add E L).
  exists v. split; [exact Hn|]. apply (pairing_honest L); auto.
Qed.
