(** Lemmas behind Properties_Rand.v: complete keys, re-randomization is onto, sampling of
    scalars. *)
From Verif Require Import Base Env NMod GroupFacts Time SpecTime TimeFacts TimeProps Hkdf Prng SpecPrng PrngFacts
  SubKey SecretKey Keys Sig IO Serdes Api SpecKey SubKeyFacts SpecUpdate UpdateFacts KeyFacts SpecSer IOFacts SerFacts
  HistoryFacts SpecSig SigProps VerProps ValProps SpecLin LinProps SpecAgg AggProps SpecRand.
From Coq Require Import ZifyBool ZifyNat ZifyN.
Local Open Scope N_scope.
Local Arguments N.add : simpl never.
Local Arguments N.mul : simpl never.
Local Arguments N.sub : simpl never.
Local Arguments N.pow : simpl never.
Local Arguments pow2 : simpl never.

(** * Lists *)
Lemma nth_firstn_lt {A} (l : list A) d : forall n i, (i < n)%nat -> nth i (firstn n l) d = nth i l d.
Proof. induction l as [|x l IH]; intros [|n] [|i] H; cbn; try reflexivity; try lia. apply IH. lia. Qed.
Lemma nth_skipn_add {A} (l : list A) d : forall n i, nth i (skipn n l) d = nth (n + i) l d.
Proof. induction l as [|x l IH]; intros [|n] i; cbn; try reflexivity; [destruct i; reflexivity|]. apply IH. Qed.
Lemma nth_ext_len {A} (l l' : list A) d : length l = length l' -> (forall i, (i < length l)%nat -> nth i l d = nth i l' d) -> l = l'.
Proof. intros Hl H. apply (nth_ext l l' d d); auto. Qed.

(** * Complete keys (C80) *)
Lemma honest_vec {E} (pp : pubparam E) x t v r i : pp_ok pp -> (length v < pp_depth pp)%nat -> (i < pp_depth pp - length v)%nat ->
  @nth (G1 E) i (sk_hvec (honest_ssk pp x t v r)) g1_zero = g1_mul r (nth (length v + 1 + i) (pp_hlist pp) g1_zero).
Proof.
  intros Hpp Hv Hi. pose proof (ppo_len pp Hpp). cbn [honest_ssk sk_hvec].
  rewrite (nth_indep _ g1_zero (g1_mul r g1_zero)) by (rewrite map_length, firstn_length, skipn_length; lia).
  rewrite map_nth, nth_firstn_lt, nth_skipn_add by lia. reflexivity.
Qed.

Lemma honest_vec_len {E} (pp : pubparam E) x t v r : pp_ok pp -> (length v < pp_depth pp)%nat ->
  length (sk_hvec (@honest_ssk E pp x t v r)) = (pp_depth pp - length v)%nat.
Proof.
  intros Hpp Hv. pose proof (ppo_len pp Hpp). cbn [honest_ssk sk_hvec]. rewrite map_length, firstn_length, skipn_length. lia.
Qed.
Lemma hlist_insub {E} (L : env_laws E) (pp : pubparam E) i : pp_ok pp -> g1_insub (nth i (pp_hlist pp) (@g1_zero E)) = true.
Proof.
  intros Hpp. destruct (Nat.lt_ge_cases i (length (pp_hlist pp))) as [H|H].
  - pose proof (ppo_hlist pp Hpp) as Hf. rewrite Forall_forall in Hf. apply Hf, nth_In, H.
  - rewrite nth_overflow by exact H. apply (l1_sub0 E L).
Qed.

Lemma honest_ssk_eqns {E} (L : env_laws E) (pp : pubparam E) x s : pp_ok pp -> honest pp x s ->
  ssk_equation pp (PubKey (pp_cs pp) (g2_mul x (pp_g2 pp))) s /\ vec_equation pp s
  /\ g2_insub (sk_g2r s) = true /\ g1_insub (sk_hpoly s) = true /\ Forall (fun h => g1_insub h = true) (sk_hvec s).
Proof.
  intros Hpp (v & r & Hn & Hs). pose proof (node_at_turn _ _ _ Hn) as [_ Hl]. pose proof (ppo_g2 pp Hpp) as Hg.
  pose proof (node_val_insub L pp v Hpp) as Hv. pose proof (ppo_h pp Hpp) as Hh.
  split; [|split; [|split; [|split]]].
  - exists v. split; [exact Hn|]. rewrite Hs. cbn [honest_ssk sk_g2r sk_hpoly pk_pk]. apply (pairing_honest L); auto.
  - exists v. split; [exact Hn|]. rewrite Hs. split; [apply honest_vec_len; auto|]. intros i Hi.
    rewrite honest_vec by auto. cbn [honest_ssk sk_g2r]. rewrite (pairing_mul_swap L); auto. apply (hlist_insub L), Hpp.
  - rewrite Hs. apply (g2_mul_insub L), Hg.
  - rewrite Hs. cbn [honest_ssk sk_hpoly]. apply (l1_sub_add E L); apply (g1_mul_insub L); auto.
  - rewrite Hs. apply Forall_forall. intros h Hh'. cbn [honest_ssk sk_hvec] in Hh'. apply in_map_iff in Hh' as (y & <- & Hy).
    apply (g1_mul_insub L). pose proof (ppo_hlist pp Hpp) as Hf. rewrite Forall_forall in Hf. apply Hf.
    rewrite <- (firstn_skipn (length v + 1) (pp_hlist pp)). apply in_or_app. right.
    rewrite <- (firstn_skipn (pp_depth pp - length v) (skipn _ _)). apply in_or_app. left. exact Hy.
Qed.

Lemma eqns_honest {E} (L : env_laws E) (pp : pubparam E) x s : pp_ok pp -> pp_g2 pp = g2_one ->
  ssk_equation pp (PubKey (pp_cs pp) (g2_mul x (pp_g2 pp))) s -> vec_equation pp s ->
  g2_insub (sk_g2r s) = true -> g1_insub (sk_hpoly s) = true -> Forall (fun h => g1_insub h = true) (sk_hvec s) ->
  honest pp x s.
Proof.
  intros Hpp Hg He (w & Hw & Hlen & Hvec) H1 H2 H3.
  apply (validated_ssk_form E L pp (PubKey (pp_cs pp) (g2_mul x (pp_g2 pp))) s x Hpp Hg eq_refl H1 H2) in He.
  destruct He as (v & r & Hn & Er & Eh). pose proof (node_at_fun _ _ _ _ Hw Hn) as ->. exists v, r. split; [exact Hn|].
  pose proof (node_at_turn _ _ _ Hn) as [_ Hl].
  assert (Ev : sk_hvec s = sk_hvec (honest_ssk pp x (sk_t s) v r)).
  { apply (nth_ext_len _ _ g1_zero); [rewrite Hlen; symmetry; apply honest_vec_len; auto|]. intros i Hi. rewrite Hlen in Hi.
    rewrite (honest_vec pp x (sk_t s) v r i Hpp Hl Hi).
    apply (pairing_inj_r L (pp_g2 pp)).
    - apply Hpp.
    - rewrite Forall_forall in H3. apply H3, nth_In. rewrite Hlen. exact Hi.
    - apply (g1_mul_insub L), (hlist_insub L), Hpp.
    - rewrite Hg. apply (l2_one_nz E L).
    - rewrite Hvec by exact Hi. rewrite Er. cbn [honest_ssk sk_g2r]. apply (pairing_mul_swap L); [apply Hpp|apply (hlist_insub L), Hpp]. }
  destruct s as [t a b c]. cbn [sk_t sk_g2r sk_hpoly sk_hvec] in *. rewrite Ev. rewrite Er, Eh. reflexivity.
Qed.

Lemma complete_good {E} (L : env_laws E) (pp : pubparam E) x sk : pp_ok pp -> pp_g2 pp = g2_one ->
  (complete_sk pp (PubKey (pp_cs pp) (g2_mul x (pp_g2 pp))) sk <-> good_sk pp x sk).
Proof.
  intros Hpp Hg. split.
  - intros [[Hc _] Ht Hl He Hv [Hp Hr]]. constructor; auto. clear Ht Hl.
    induction (sec_ssk sk) as [|s l IH]; [constructor|]. inversion He; inversion Hv; inversion Hp as [|? ? (P1 & P2 & P3) ?]; subst.
    constructor; [|apply IH; auto]. apply (eqns_honest L); auto.
  - intros [Hc Ht Hl Hh Hr].
    assert (HF : Forall (fun s => ssk_equation pp (PubKey (pp_cs pp) (g2_mul x (pp_g2 pp))) s /\ vec_equation pp s
      /\ g2_insub (sk_g2r s) = true /\ g1_insub (sk_hpoly s) = true /\ Forall (fun h => g1_insub h = true) (sk_hvec s)) (sec_ssk sk)).
    { eapply Forall_impl; [|exact Hh]. intros s. apply (honest_ssk_eqns L pp x s Hpp). }
    constructor; auto.
    + eapply Forall_impl; [|exact HF]. intros s Q. apply Q.
    + eapply Forall_impl; [|exact HF]. intros s Q. apply Q.
    + split; [|exact Hr]. eapply Forall_impl; [|exact HF]. intros s Q. apply Q.
Qed.

(** What validation leaves unchecked. *)
Lemma complete_is_validate_plus : forall (E : env) (L : env_laws E) m (pp : pubparam E) pk sk,
  pp_ok pp -> g2_insub (pk_pk pk) = true ->
  (complete_sk pp pk sk <->
   sk_validate m sk pk pp = Ok true
   /\ tiling (pp_depth pp) (sec_time sk) (map sk_t (sec_ssk sk))
   /\ Forall (vec_equation pp) (sec_ssk sk) /\ points_ok sk).
Proof.
  intros E L m pp pk sk Hpp Hpk. split.
  - intros [[Hc Hc'] Ht Hl He Hv Hp]. split; [|auto]. apply (validate_iff E L m pp sk pk Hpp Hpk).
    + destruct Hp as [Hp _]. eapply Forall_impl; [|exact Hp]. intros s Q. split; apply Q.
    + repeat split; auto; try apply Ht. exists []. rewrite app_nil_r. exact Hl.
  - intros (Hs & Hl & Hv & Hp). apply (validate_iff E L m pp sk pk Hpp Hpk) in Hs as (Hc & Hc' & Ht & _ & He).
    + constructor; auto.
    + destruct Hp as [Hp _]. eapply Forall_impl; [|exact Hp]. intros s Q. split; apply Q.
Qed.

Lemma complete_pk {E} (L : env_laws E) (pp : pubparam E) pk sk : pp_ok pp -> pp_g2 pp = g2_one -> g2_insub (pk_pk pk) = true ->
  complete_sk pp pk sk -> exists x, pk = PubKey (pp_cs pp) (g2_mul x (pp_g2 pp)) /\ good_sk pp x sk.
Proof.
  intros Hpp Hg Hpk Hc. destruct (l2_gen E L _ Hpk) as [x Hx]. rewrite <- Hg in Hx. exists x.
  assert (pk = PubKey (pp_cs pp) (g2_mul x (pp_g2 pp))) as ->.
  { destruct pk as [c p]. destruct (cmp_cs _ _ _ Hc) as [_ H]. cbn in *. congruence. }
  split; [reflexivity|]. apply (complete_good L); auto.
Qed.

Lemma complete_key_history : forall (E : env) (L : env_laws E) m m' (pp : pubparam E) pk sk ops,
  pp_ok pp -> pp_g2 pp = g2_one -> valid_cs (pp_cs pp) = true -> g2_insub (pk_pk pk) = true -> complete_sk pp pk sk ->
  complete_sk pp pk (snd (run m pp ops sk))
  /\ Forall2 (fun o r => match r with
                      | Ok (Some s) => exists t msg, signs o = Some (t, msg) /\ verify m' s pk pp msg = Ok true
                                                     /\ sig_time s = t /\ sig_cs s = pp_cs pp
                      | _ => True
                      end) ops (fst (run m pp ops sk)).
Proof.
  intros E L m m' pp pk sk ops Hpp Hg Hcs Hpk Hc. destruct (complete_pk L pp pk sk Hpp Hg Hpk Hc) as (x & -> & Hgood).
  split; [apply (complete_good L); auto; apply (run_good L); auto|].
  clear Hc. revert sk Hgood. induction ops as [|o ops IH]; intros sk Hgood; cbn [run]; [constructor|].
  pose proof (step_good L m pp x o sk Hpp Hcs Hgood) as [Hg' _].
  destruct (step m pp o sk) as [r sk1] eqn:Es. cbn [fst snd] in Hg'. specialize (IH sk1 Hg').
  destruct (run m pp ops sk1) as [rs sk2]. cbn [fst] in *. constructor; [|exact IH].
  destruct r as [[s|]| |]; auto. apply (step_signature L m m' pp x o sk s sk1); auto.
Qed.

Lemma not_no_repeat {E} d (sk : seckey E) seed : ~ no_repeat d sk seed ->
  exists i, (1 <= i < d)%nat /\ draws (sha512 E) i (spec_reseed sk seed) = sec_prng sk.
Proof.
  intros H. destruct (existsb (fun i => bytes_eqb (draws (sha512 E) i (spec_reseed sk seed)) (sec_prng sk)) (seq 1 (d - 1))) eqn:Ex.
  - apply existsb_exists in Ex as (i & Hi & He). apply in_seq in Hi. apply bytes_eqb_eq in He. exists i. split; [lia|exact He].
  - exfalso. apply H. intros i Hi He. rewrite <- not_true_iff_false, existsb_exists in Ex. apply Ex. exists i.
    split; [apply in_seq; lia|]. apply bytes_eqb_eq, He.
Qed.

Lemma complete_key_signs : forall (E : env) (L : env_laws E) m m' (pp : pubparam E) pk sk t msg seed,
  pp_ok pp -> pp_g2 pp = g2_one -> valid_cs (pp_cs pp) = true -> g2_insub (pk_pk pk) = true -> complete_sk pp pk sk ->
  sec_time sk <= t <= last_time (pp_depth pp) ->
  (exists s sk', sign m t pp msg seed sk = (Ok s, sk') /\ verify m' s pk pp msg = Ok true)
  \/ (sign m t pp msg seed sk = (Panic P_PRNG, sk)
      /\ exists i, (1 <= i < pp_depth pp)%nat /\ draws (sha512 E) i (spec_reseed sk seed) = sec_prng sk).
Proof.
  intros E L m m' pp pk sk t msg seed Hpp Hg Hcs Hpk Hc Ht. destruct (complete_pk L pp pk sk Hpp Hg Hpk Hc) as (x & -> & Hgood).
  pose proof (sign_cases L m pp x sk t msg seed Hpp Hcs Hgood) as H.
  destruct (sec_time sk =? t) eqn:Et.
  - destruct H as (s & -> & Hs). left. exists s, sk. split; [reflexivity|]. apply (good_sig_verifies L m' pp x t msg s _ Hpp Hcs Hs).
  - destruct (in_range pp sk t) eqn:Er; [|unfold in_range in Er; lia].
    destruct H as [(s & sk' & -> & Hs & _)|[-> Hn]].
    + left. exists s, sk'. split; [reflexivity|]. apply (good_sig_verifies L m' pp x t msg s _ Hpp Hcs Hs).
    + right. split; [reflexivity|]. apply not_no_repeat, Hn.
Qed.

(** * Re-randomization is onto (C81) *)
Lemma mul2_cong {E} (L : env_laws E) (g : G2 E) a b : g2_insub g = true -> g <> g2_zero ->
  g2_mul a g = g2_mul b g -> a mod fr_modulus = b mod fr_modulus.
Proof.
  intros Hg Hnz H. apply (mul2_inj L g); auto; try (apply N.mod_lt; discriminate).
  rewrite !(mul_mod2 L); auto.
Qed.
(** The scalar that leads from [r] to [k]. *)
Definition diff (r k : N) : N := (k + (fr_modulus - r mod fr_modulus)) mod fr_modulus.
Lemma diff_ok r k : (r + diff r k) mod fr_modulus = k mod fr_modulus.
Proof.
  unfold diff. pose proof (N.mod_lt r fr_modulus ltac:(discriminate)) as Hr.
  rewrite N.add_mod_idemp_r by discriminate. rewrite (N.div_mod r fr_modulus) at 1 by discriminate.
  replace (fr_modulus * (r / fr_modulus) + r mod fr_modulus + (k + (fr_modulus - r mod fr_modulus)))
    with (k + (r / fr_modulus + 1) * fr_modulus) by lia.
  apply N.mod_add. discriminate.
Qed.
Lemma diff_lt r k : diff r k < fr_modulus.
Proof. apply N.mod_lt. discriminate. Qed.
Lemma diff_unique r j j' : j < fr_modulus -> j' < fr_modulus -> (r + j) mod fr_modulus = (r + j') mod fr_modulus -> j = j'.
Proof.
  intros Hj Hj' H. assert (Hf : fr_modulus <> 0) by discriminate. set (q := fr_modulus) in *. clearbody q.
  pose proof (N.div_mod (r + j) q Hf). pose proof (N.div_mod (r + j') q Hf). rewrite H in *.
  assert ((r + j) / q = (r + j') / q \/ (r + j) / q < (r + j') / q \/ (r + j') / q < (r + j) / q) as [Hq|[Hq|Hq]] by lia; [rewrite Hq in *; lia| |]; nia.
Qed.

Lemma honest_sig_cong {E} (L : env_laws E) (pp : pubparam E) x t v M a b : pp_ok pp -> node_at (pp_depth pp) t v ->
  a mod fr_modulus = b mod fr_modulus -> honest_sig pp x t v M a = honest_sig pp x t v M b.
Proof.
  intros Hpp Hn H. unfold honest_sig. pose proof (sig_val_insub L pp v M Hpp) as Hs.
  rewrite <- (mul_mod2 L a), <- (mul_mod2 L b) by apply Hpp. rewrite (mul_mod L (sig_val pp v M) a Hs), (mul_mod L (sig_val pp v M) b Hs), H. reflexivity.
Qed.
Lemma honest_ssk_cong {E} (L : env_laws E) (pp : pubparam E) x t v a b : pp_ok pp -> node_at (pp_depth pp) t v ->
  a mod fr_modulus = b mod fr_modulus -> honest_ssk pp x t v a = honest_ssk pp x t v b.
Proof.
  intros Hpp Hn H. unfold honest_ssk. pose proof (node_val_insub L pp v Hpp) as Hs.
  rewrite <- (mul_mod2 L a), <- (mul_mod2 L b) by apply Hpp. rewrite (mul_mod L (node_val pp v) a Hs), (mul_mod L (node_val pp v) b Hs), H.
  f_equal. apply map_ext_in. intros h Hh. assert (Hi : g1_insub h = true).
  { pose proof (ppo_hlist pp Hpp) as Hf. rewrite Forall_forall in Hf. apply Hf.
    rewrite <- (firstn_skipn (length v + 1) (pp_hlist pp)). apply in_or_app. right.
    rewrite <- (firstn_skipn (pp_depth pp - length v) (skipn _ _)). apply in_or_app. left. exact Hh. }
  rewrite (mul_mod L h a Hi), (mul_mod L h b Hi), H. reflexivity.
Qed.

Lemma every_signature_made : forall (E : env) (L : env_laws E) m m' m'' (pp : pubparam E) pk sk msg s,
  pp_ok pp -> pp_g2 pp = g2_one -> reachable m pp pk sk ->
  verify m' s pk pp msg = Ok true -> sig_time s = sec_time sk ->
  exists k, k < fr_modulus /\ sign_fr m'' sk (sec_time sk) pp (msg_scalar pp msg) k = Ok s
    /\ forall k', k' < fr_modulus -> sign_fr m'' sk (sec_time sk) pp (msg_scalar pp msg) k' = Ok s -> k' = k.
Proof.
  intros E L m m' m'' pp pk sk msg s Hpp Hg Hr Hv Ht. destruct (reachable_good L m pp pk sk Hpp Hr) as (x & _ & -> & Hgood & Hcs).
  apply (accepted_form E L m' pp s (PubKey (pp_cs pp) (g2_mul x (pp_g2 pp))) msg x Hpp Hg eq_refl) in Hv as (_ & w & c & Hn & Hs). rewrite Ht in *.
  destruct (good_sk_head pp x sk Hgood) as (v & r & ssks & Hn' & Hk). pose proof (node_at_fun _ _ _ _ Hn' Hn) as ->.
  assert (Hf : forall k, sign_fr m'' sk (sec_time sk) pp (msg_scalar pp msg) k
               = Ok (honest_sig pp x (sec_time sk) w (msg_scalar pp msg) (r + k))).
  { intros k. apply (sign_fr_honest L m'' pp x sk ssks w r); auto. }
  exists (diff r c). split; [apply diff_lt|]. rewrite Hf. split.
  - rewrite Hs. f_equal. apply (honest_sig_cong L); auto. apply diff_ok.
  - intros k' Hk' Hok. rewrite Hf, Hs in Hok. injection Hok as H1 _. apply (mul2_cong L) in H1; [|apply Hpp|rewrite Hg; apply (l2_one_nz E L)].
    rewrite <- (diff_ok r c) in H1. apply (diff_unique r); auto. apply diff_lt.
Qed.

Lemma same_signatures : forall (E : env) (L : env_laws E) m m' m'' (pp : pubparam E) pk sk sk' M k,
  pp_ok pp -> pp_g2 pp = g2_one -> reachable m pp pk sk -> reachable m' pp pk sk' -> sec_time sk = sec_time sk' ->
  exists k', k' < fr_modulus /\ sign_fr m'' sk (sec_time sk) pp M k = sign_fr m'' sk' (sec_time sk) pp M k'
    /\ is_ok (sign_fr m'' sk (sec_time sk) pp M k) = true
    /\ forall j, j < fr_modulus -> sign_fr m'' sk (sec_time sk) pp M k = sign_fr m'' sk' (sec_time sk) pp M j -> j = k'.
Proof.
  intros E L m m' m'' pp pk sk sk' M k Hpp Hg Hr Hr' Ht.
  destruct (reachable_good L m pp pk sk Hpp Hr) as (x & Hx & Epk & Hgood & Hcs).
  destruct (reachable_good L m' pp pk sk' Hpp Hr') as (x' & Hx' & Epk' & Hgood' & _).
  assert (Hnz : pp_g2 pp <> g2_zero) by (rewrite Hg; apply (l2_one_nz E L)).
  assert (x' = x) as ->.
  { rewrite Epk in Epk'. injection Epk' as H. symmetry. apply (mul2_inj L (pp_g2 pp)); auto. apply Hpp. }
  destruct (good_sk_head pp x sk Hgood) as (v & r & ssks & Hn & Hk).
  destruct (good_sk_head pp x sk' Hgood') as (v' & r' & ssks' & Hn' & Hk'). rewrite <- Ht in *.
  pose proof (node_at_fun _ _ _ _ Hn' Hn) as ->.
  assert (Hf : forall k, sign_fr m'' sk (sec_time sk) pp M k = Ok (honest_sig pp x (sec_time sk) v M (r + k))).
  { intros j. apply (sign_fr_honest L m'' pp x sk ssks v r); auto. }
  assert (Hf' : forall k, sign_fr m'' sk' (sec_time sk) pp M k = Ok (honest_sig pp x (sec_time sk) v M (r' + k))).
  { intros j. rewrite Ht in *. apply (sign_fr_honest L m'' pp x sk' ssks' v r'); auto. }
  exists (diff r' (r + k)). split; [apply diff_lt|]. rewrite Hf, Hf'. split; [|split; [reflexivity|]].
  - f_equal. apply (honest_sig_cong L); auto. rewrite diff_ok. reflexivity.
  - intros j Hj Hok. rewrite Hf' in Hok. injection Hok as H1 _. apply (mul2_cong L) in H1; auto; [|apply Hpp].
    rewrite <- (diff_ok r' (r + k)) in H1. apply (diff_unique r'); auto using diff_lt.
Qed.

Lemma every_subkey_reached : forall (E : env) (L : env_laws E) m (pp : pubparam E) pk s s',
  pp_ok pp -> pp_g2 pp = g2_one -> g2_insub (pk_pk pk) = true ->
  Forall (fun s => ssk_equation pp pk s /\ vec_equation pp s /\ g2_insub (sk_g2r s) = true
                   /\ g1_insub (sk_hpoly s) = true /\ Forall (fun h => g1_insub h = true) (sk_hvec s)) [s; s'] ->
  sk_t s = sk_t s' ->
  exists k, k < fr_modulus /\ randomization m pp k s = (Ok tt, s')
    /\ forall k', k' < fr_modulus -> randomization m pp k' s = (Ok tt, s') -> k' = k.
Proof.
  intros E L m pp pk s s' Hpp Hg Hpk Hf Ht. destruct (l2_gen E L _ Hpk) as [x Hx]. rewrite <- Hg in Hx.
  assert (Hh : forall u, In u [s; s'] -> honest pp x u).
  { intros u Hu. rewrite Forall_forall in Hf. destruct (Hf u Hu) as (A & B & C & D & F).
    apply (eqns_honest L); auto. destruct A as (v & Hn & A). exists v. split; [exact Hn|]. rewrite Hx in A. exact A. }
  destruct (Hh s) as (v & r & Hn & Hs); [left; reflexivity|]. destruct (Hh s') as (v' & r' & Hn' & Hs'); [right; left; reflexivity|].
  rewrite <- Ht in *. pose proof (node_at_fun _ _ _ _ Hn' Hn) as ->.
  assert (Hf' : forall k, randomization m pp k s = (Ok tt, honest_ssk pp x (sk_t s) v (r + k))).
  { intros k. rewrite Hs at 1. apply (randomization_honest L); auto. }
  exists (diff r r'). split; [apply diff_lt|]. rewrite Hf'. split.
  - rewrite Hs'. f_equal. apply (honest_ssk_cong L); auto. apply diff_ok.
  - intros k' Hk' Hok. rewrite Hf', Hs' in Hok. injection Hok as H1 _. apply (mul2_cong L) in H1; [|apply Hpp|rewrite Hg; apply (l2_one_nz E L)].
    rewrite <- (diff_ok r r') in H1. apply (diff_unique r); auto using diff_lt.
Qed.

(** * Sampling of scalars (C82) *)
Lemma below_S n : below (N.succ n) = below n ++ [n].
Proof.
  unfold below. rewrite N2Nat.inj_succ, seq_S, map_app. cbn [map]. rewrite Nat.add_0_l, N2Nat.id. reflexivity.
Qed.
Lemma seq_from a n : seq a n = map (fun i => (a + i)%nat) (seq 0 n).
Proof.
  revert a. induction n as [|n IH]; intros a; [reflexivity|]. cbn [seq map]. rewrite Nat.add_0_r. f_equal.
  rewrite (IH (S a)), (IH 1%nat), map_map. apply map_ext. intros i. lia.
Qed.
Lemma below_add n k : below (n + k) = below n ++ map (fun b => n + b) (below k).
Proof.
  unfold below. rewrite N2Nat.inj_add, seq_app, map_app. f_equal. rewrite Nat.add_0_l, seq_from, !map_map.
  apply map_ext. intros i. lia.
Qed.
Lemma below_mul n k : below (n * k) = flat_map (fun a => map (fun b => a * k + b) (below k)) (below n).
Proof.
  induction n as [|n IH] using N.peano_ind; [reflexivity|].
  rewrite below_S, flat_map_app, <- IH. cbn [flat_map]. rewrite app_nil_r. replace (N.succ n * k) with (n * k + k) by lia.
  apply below_add.
Qed.
Lemma all_strings_length n l : In l (all_strings n) <-> length l = n /\ are_bytes l.
Proof.
  revert l. induction n as [|n IH]; intros l.
  - cbn. split; [intros [<-|[]]; split; [reflexivity|constructor]|]. intros [H _]. left. destruct l; [reflexivity|discriminate H].
  - cbn [all_strings]. rewrite in_flat_map. split.
    + intros (b & Hb & Hl). apply in_map_iff in Hl as (l' & <- & Hl'). apply IH in Hl' as [Hn Hf].
      unfold below in Hb. apply in_map_iff in Hb as (i & <- & Hi). apply in_seq in Hi. split; [cbn; lia|].
      constructor; [|exact Hf]. unfold is_byte. change (N.to_nat 256) with 256%nat in Hi. lia.
    + destruct l as [|b l]; intros [Hn Hf]; [discriminate Hn|]. inversion Hf as [|? ? Hb Hf']; subst. exists b. split.
      * unfold below. apply in_map_iff. exists (N.to_nat b). unfold is_byte in Hb. split; [lia|]. apply in_seq. change (N.to_nat 256) with 256%nat. lia.
      * apply in_map, IH. split; [cbn in Hn; lia|exact Hf'].
Qed.
Lemma os2ip_all n : map os2ip (all_strings n) = below (256 ^ N.of_nat n).
Proof.
  induction n as [|n IH]; [reflexivity|].
  rewrite Nat2N.inj_succ, N.pow_succ_r', below_mul. cbn [all_strings]. rewrite <- IH.
  generalize (below 256). intros l. induction l as [|b l IHl]; [reflexivity|]. cbn [flat_map]. change bytes with (list N) in *. rewrite map_app, IHl. f_equal.
  rewrite !map_map. apply map_ext_in. intros w Hw. apply all_strings_length in Hw as [Hw _]. rewrite os2ip_cons, Hw. reflexivity.
Qed.
Lemma all_strings_nodup n : NoDup (all_strings n).
Proof.
  apply (NoDup_map_inv os2ip). rewrite os2ip_all. unfold below. apply FinFun.Injective_map_NoDup; [intros a b H; lia|apply seq_NoDup].
Qed.
Lemma count_map {A B} (f : B -> bool) (g : A -> B) l : count f (map g l) = count (fun a => f (g a)) l.
Proof. unfold count. f_equal. induction l as [|a l IH]; [reflexivity|]. cbn. destruct (f (g a)); cbn; rewrite IH; reflexivity. Qed.
Lemma count_app {A} (f : A -> bool) l l' : count f (l ++ l') = count f l + count f l'.
Proof. unfold count. rewrite filter_app, app_length. lia. Qed.
Lemma count_ext {A} (f g : A -> bool) l : (forall a, In a l -> f a = g a) -> count f l = count g l.
Proof. intros H. unfold count. rewrite (filter_ext_in _ _ _ H). reflexivity. Qed.
Lemma count_residue r x n : x < r -> count (fun a => a mod r =? x) (below n) = n / r + (if x <? n mod r then 1 else 0).
Proof.
  intros Hx. assert (Hr : r <> 0) by lia. induction n as [|n IH] using N.peano_ind.
  { rewrite N.div_0_l, N.mod_0_l by lia. cbn. destruct (N.ltb_spec x 0); lia. }
  rewrite below_S, count_app, IH. unfold count at 1. cbn [filter].
  pose proof (N.div_mod n r Hr) as Hd. pose proof (N.mod_lt n r Hr) as Hm.
  destruct (N.eq_dec (n mod r) (r - 1)) as [He|He].
  - assert (N.succ n = r * (n / r + 1) + 0) as Hs by lia.
    rewrite <- (N.div_unique (N.succ n) r (n / r + 1) 0), <- (N.mod_unique (N.succ n) r (n / r + 1) 0) by lia.
    destruct (N.ltb_spec x (n mod r)), (N.ltb_spec x 0), (N.eqb_spec (n mod r) x); cbn; lia.
  - rewrite <- (N.div_unique (N.succ n) r (n / r) (n mod r + 1)), <- (N.mod_unique (N.succ n) r (n / r) (n mod r + 1)) by lia.
    destruct (N.ltb_spec x (n mod r)), (N.ltb_spec x (n mod r + 1)), (N.eqb_spec (n mod r) x); cbn; lia.
Qed.

Lemma sampling_count : forall x, x < fr_modulus ->
  count (fun l => match os2ip_mod_p l with Ok y => y =? x | _ => false end) (all_strings 64)
  = 2 ^ 512 / fr_modulus + (if x <? 2 ^ 512 mod fr_modulus then 1 else 0).
Proof.
  intros x Hx. rewrite <- (count_residue fr_modulus x (2 ^ 512) Hx).
  replace (2 ^ 512) with (256 ^ N.of_nat 64) by (vm_compute; reflexivity). rewrite <- os2ip_all, count_map.
  apply count_ext. intros l Hl. apply all_strings_length in Hl as [Hl _]. rewrite (os2ip_mod_p_spec l) by lia. reflexivity.
Qed.
Lemma sampling_strings : forall n, (forall l, In l (all_strings n) <-> length l = n /\ are_bytes l) /\ NoDup (all_strings n).
Proof. intros n. split; [apply all_strings_length|apply all_strings_nodup]. Qed.
Lemma count_in_cons {A} (f : A -> option N) x T l : ~ In x T ->
  count (fun a => match f a with Some y => existsb (N.eqb y) (x :: T) | None => false end) l
  = count (fun a => match f a with Some y => y =? x | None => false end) l
    + count (fun a => match f a with Some y => existsb (N.eqb y) T | None => false end) l.
Proof.
  intros Hx. unfold count. induction l as [|a l IH]; [reflexivity|]. cbn [filter existsb] in *.
  destruct (f a) as [y|]; [|exact IH]. destruct (N.eqb_spec y x) as [->|Hne]; cbn [orb].
  - replace (existsb (N.eqb x) T) with false; [cbn [length]; lia|]. symmetry. apply not_true_iff_false. intros Ht.
    apply existsb_exists in Ht as (z & Hz & He). apply N.eqb_eq in He. subst z. contradiction.
  - destruct (existsb (N.eqb y) T); cbn [length]; lia.
Qed.
Lemma nodup_below_length r T : NoDup T -> Forall (fun x => x < r) T -> N.of_nat (length T) <= r.
Proof.
  intros Hn Hf. assert (H : (length T <= length (below r))%nat).
  { apply NoDup_incl_length; [exact Hn|]. intros x Hx. rewrite Forall_forall in Hf. specialize (Hf x Hx).
    unfold below. apply in_map_iff. exists (N.to_nat x). split; [lia|]. apply in_seq. lia. }
  unfold below in H. rewrite map_length, seq_length in H. lia.
Qed.
(** For every set of scalars, the probability differs from the uniform one by less than
    r / 2^512 (which is below 2^-256). *)
Lemma sampling_bias : forall (T : list N), NoDup T -> Forall (fun x => x < fr_modulus) T ->
  let c := count (fun l => match os2ip_mod_p l with Ok y => existsb (N.eqb y) T | _ => false end) (all_strings 64) in
  let u := N.of_nat (length T) in
  c * fr_modulus < u * 2 ^ 512 + fr_modulus * fr_modulus /\ u * 2 ^ 512 < c * fr_modulus + fr_modulus * fr_modulus.
Proof.
  intros T Hn Hf c u. pose proof (nodup_below_length _ T Hn Hf) as Hu. fold u in Hu.
  assert (Hc : u * (2 ^ 512 / fr_modulus) <= c <= u * (2 ^ 512 / fr_modulus) + u).
  { set (f := fun l => match os2ip_mod_p l with Ok y => Some y | _ => None end).
    assert (Hc : c = count (fun l => match f l with Some y => existsb (N.eqb y) T | None => false end) (all_strings 64)).
    { apply count_ext. intros l _. unfold f. destruct (os2ip_mod_p l); reflexivity. }
    rewrite Hc. subst u. clear c Hc Hu. induction T as [|x T IH].
    { replace (count _ _) with 0; [cbn; lia|]. unfold count. symmetry. rewrite (filter_ext _ (fun _ => false)); [|intros a; destruct (f a); reflexivity].
      induction (all_strings 64); [reflexivity|exact IHl]. }
    inversion Hn as [|? ? Hni Hn']; subst. inversion Hf as [|? ? Hx Hf']; subst. rewrite count_in_cons by exact Hni. specialize (IH Hn' Hf').
    pose proof (sampling_count x Hx) as Hs. erewrite count_ext in Hs; [rewrite Hs|].
    2:{ intros l _. unfold f. destruct (os2ip_mod_p l); reflexivity. }
    cbn [length]. rewrite Nat2N.inj_succ. destruct (x <? _); lia. }
  pose proof (N.div_mod (2 ^ 512) fr_modulus ltac:(discriminate)) as Hd. pose proof (N.mod_lt (2 ^ 512) fr_modulus ltac:(discriminate)) as Hm.
  assert (H0 : fr_modulus <> 0) by discriminate. assert (Hrem : 0 < 2 ^ 512 mod fr_modulus) by (vm_compute; reflexivity).
  set (q := 2 ^ 512 / fr_modulus) in *. set (d := 2 ^ 512 mod fr_modulus) in *. set (w := 2 ^ 512) in *. set (r := fr_modulus) in *.
  clearbody c u q d w r. split; nia.
Qed.
Lemma bias_small : fr_modulus * fr_modulus * 2 ^ 256 < 2 ^ 512 * fr_modulus.
Proof. vm_compute. reflexivity. Qed.
