(** Properties of what the functions leave in memory. *)
From Coq Require Import String.
From Verif Require Import Base Env Time Hkdf TimeFacts SpecTime Prng SpecPrng PrngFacts SubKey SecretKey Keys Sig IO Serdes
  Api SpecKey SpecUpdate GroupFacts SubKeyFacts UpdateFacts KeyFacts HistoryFacts KeyProps AlgProps LinProps
  SpecSer IOFacts SerFacts SerProps FfiProps Hygiene SpecHyg HygFacts.
From Coq Require Import ZArith Znumtheory ZifyBool ZifyNat ZifyN.
Local Open Scope N_scope.
Local Arguments N.add : simpl never.
Local Arguments N.mul : simpl never.
Local Arguments N.sub : simpl never.
Local Arguments pow2 : simpl never.

(** * The instrumented functions compute the same *)
Lemma hygiene_agrees : forall (E : env) (L : env_laws E) m (pp : pubparam E) seed sk t msg c w s,
  (fst (key_gen_h seed pp s) = key_gen seed pp /\ fst (snd (key_gen_h seed pp s)) = fst s)
  /\ (fst (update_h m pp t seed sk s) = run_mut (update m pp t seed) sk /\ fst (snd (update_h m pp t seed sk s)) = fst s)
  /\ (fst (sign_present_h m t pp msg sk s) = fst (sign_present m t pp msg sk)
      /\ fst (snd (sign_present_h m t pp msg sk s)) = fst s)
  /\ (fst (sk_serialize_h sk c w s) = run_mut (sk_serialize sk c) w /\ fst (snd (sk_serialize_h sk c w s)) = fst s)
  /\ (fst (digest_h sk s) = sk_digest sk /\ fst (snd (digest_h sk s)) = fst s).
Proof.
  intros. destruct (key_gen_h_any L pp seed) as (d1 & H1). destruct (update_h_spec L m pp t seed sk) as (d2 & H2 & _).
  destruct (sign_present_h_spec L m t pp msg sk) as (d3 & H3 & _). destruct (sk_serialize_h_spec sk c w) as (d4 & H4 & _).
  destruct (digest_h_spec sk) as (d5 & H5 & _).
  rewrite H1, H2, H3, H4, H5. cbn [fst snd]. repeat split.
Qed.

(** * No variable called _sec is left by update and signing *)
Lemma left_by_nosec {E : env} n g : no_sec_left (@left_by E n g).
Proof.
  unfold left_by, no_sec_left. induction (scals n g) as [|x l IH]; [constructor|]. cbn [flat_map draw_cells app].
  repeat constructor; try reflexivity. exact IH.
Qed.
Lemma sign_cells_nosec {E} (pp : pubparam E) sk t msg : no_sec_left (sign_cells pp sk t msg).
Proof. repeat constructor. Qed.

Lemma update_sign_no_sec : forall (E : env) (L : env_laws E) m (pp : pubparam E) sk t seed msg,
  (exists d, gives (update_h m pp t seed sk) (run_mut (update m pp t seed) sk) d
             /\ ((forall p, run_mut (update m pp t seed) sk <> Panic p) -> no_sec_left d))
  /\ (exists d, gives (sign_present_h m t pp msg sk) (fst (sign_present m t pp msg sk)) d
             /\ ((forall p, fst (sign_present m t pp msg sk) <> Panic p) -> no_sec_left d)).
Proof.
  intros E L m pp sk t seed msg. split.
  - destruct (update_h_spec L m pp t seed sk) as (d & Hd & Hc). exists d. split; [exact Hd|]. intros Hp.
    destruct (run_mut (update m pp t seed) sk) as [sk'|e|p].
    + destruct Hc as (n & -> & _). apply left_by_nosec.
    + destruct Hc as (n & ->). apply left_by_nosec.
    + contradiction (Hp p eq_refl).
  - destruct (sign_present_h_spec L m t pp msg sk) as (d & Hd & Hc). exists d. split; [exact Hd|]. intros Hp.
    destruct (fst (sign_present m t pp msg sk)) as [s|e|p].
    + subst d. apply sign_cells_nosec.
    + destruct Hc as [->| ->]; [constructor|apply sign_cells_nosec].
    + contradiction (Hp p eq_refl).
Qed.

(** Randomization with a wrong time stamp does leave one. *)
Lemma randomization_sec_left : forall (E : env) m (pp : pubparam E) k s e,
  tv_init m (sk_t s) (pp_depth pp) = Err e ->
  gives (randomization_h m pp k s) (Err e)
    [Cell "randomization" "tmp_sec" (VG2 (g2_mul k (pp_g2 pp))); Cell "randomization" "r" (VInt k)].
Proof.
  intros E m pp k s e He.
  assert (Hm : run_mut (randomization m pp k) s = Err e).
  { rewrite randomization_flat. unfold ssk_time_vec. rewrite He. reflexivity. }
  destruct (randomization_h_spec m pp k s) as [Hr|[Hr _]].
  - exfalso. rewrite Hm in Hr. specialize (Hr ([], [])). revert Hr. unfold randomization_h, call. cbn [fst snd].
    hrun. unfold ssk_time_vec. rewrite He. hrun. intros Hr. discriminate Hr.
  - rewrite Hm in Hr. exact Hr.
Qed.

(** * Exactly what an update leaves *)
Lemma split_post {E} (pp : pubparam E) x l tar pre ta va r post : split_at pp x l tar pre ta va r post ->
  post = filter (fun s => tar <? sk_t s) l.
Proof.
  intros [-> Hn Hc Hpre Htil Hpost]. rewrite filter_app. cbn [filter honest_ssk sk_t].
  replace (tar <? ta) with false by lia.
  replace (filter (fun s => tar <? sk_t s) pre) with (@nil (subkey E)).
  - cbn [app]. symmetry. clear -Hpost. induction Hpost as [|s l Hs _ IH]; [reflexivity|].
    cbn [filter]. replace (tar <? sk_t s) with true by lia. f_equal. exact IH.
  - clear -Hpre Hc. induction Hpre as [|s l Hs _ IH]; [reflexivity|].
    cbn [filter]. replace (tar <? sk_t s) with false by lia. exact IH.
Qed.

Lemma filter_all {A} (f : A -> bool) l : Forall (fun x => f x = true) l -> filter f l = l.
Proof. induction 1 as [|x l H _ IH]; [reflexivity|]. cbn [filter]. rewrite H, IH. reflexivity. Qed.
Lemma filter_none {A} (f : A -> bool) l : Forall (fun x => f x = false) l -> filter f l = [].
Proof. induction 1 as [|x l H _ IH]; [reflexivity|]. cbn [filter]. rewrite H. exact IH. Qed.

Lemma known_true (l : list N) t : In t l -> existsb (N.eqb t) l = true.
Proof. intros H. apply existsb_exists. exists t. rewrite N.eqb_refl. auto. Qed.
Lemma known_false (l : list N) t : ~ In t l -> existsb (N.eqb t) l = false.
Proof.
  intros H. destruct (existsb (N.eqb t) l) eqn:He; [|reflexivity]. apply existsb_exists in He as (u & Hu & Hk).
  apply N.eqb_eq in Hk. subst u. contradiction.
Qed.

(** The new sub keys of an update. *)
Lemma update_shape {E} (L : env_laws E) m (pp : pubparam E) x sk tar seed sk' :
  pp_ok pp -> good_sk pp x sk -> run_mut (update m pp tar seed) sk = Ok sk' ->
  exists pre ta va r post, split_at pp x (sec_ssk sk) tar pre ta va r post
   /\ ((ta = tar /\ sec_ssk sk' = honest_ssk pp x ta va r :: post /\ new_times sk sk' = [])
     \/ (ta < tar /\ exists v gpre gpost, node_at (pp_depth pp) tar v
         /\ gamma_list m (TimeVec tar v) (pp_depth pp) = Ok (TimeVec tar v :: gpre ++ gpost)
         /\ (exists w, v = va ++ w)
         /\ Forall (fun tv => node_at (pp_depth pp) (tv_time tv) (tv_vec tv) /\ exists w, w <> [] /\ tv_vec tv = va ++ w) gpre
         /\ sec_ssk sk' = map (fun ie => honest_ssk pp x (tv_time (snd ie)) (tv_vec (snd ie)) (r + added (sha512 E) (spec_reseed sk seed) (fst ie)))
              (combine (seq 0 (S (length gpre))) (TimeVec tar v :: gpre)) ++ post
         /\ new_times sk sk' = tar :: map tv_time gpre)).
Proof.
  intros Hpp Hg Hu. pose proof (ppo_depth pp Hpp) as Hd. pose proof (gsk_time _ _ _ Hg) as Htime.
  assert (Hu0 : update m pp tar seed sk = (Ok tt, sk')).
  { unfold run_mut in Hu. destruct (update m pp tar seed sk) as [[[]|e|p] s]; [injection Hu as ->; reflexivity|discriminate Hu..]. }
  assert (Ht : sec_time sk < tar <= last_time (pp_depth pp)).
  { pose proof (update_cases L m pp x sk tar seed Hpp Hg) as H. destruct (in_range pp sk tar) eqn:Er.
    - unfold in_range in Er. lia.
    - rewrite Hu0 in H. discriminate H. }
  destruct (update_good L m pp x sk tar seed Hpp Hg Ht) as (pre & ta & va & r & post & Hsp & Hcase).
  exists pre, ta, va, r, post. split; [exact Hsp|]. destruct Hsp as [Hl Hn Hc Hpre Htil Hpost].
  assert (Hinpost : forall s, In s post -> In (sk_t s) (map sk_t (sec_ssk sk))).
  { intros s Hs. apply in_map. rewrite Hl. apply in_or_app. right. right. exact Hs. }
  assert (Hkpost : filter (fun t => negb (existsb (N.eqb t) (map sk_t (sec_ssk sk)))) (map sk_t post) = []).
  { apply filter_none. apply Forall_map. apply Forall_forall. intros s Hs. cbn beta. rewrite known_true by auto. reflexivity. }
  destruct Hcase as [[He Hu']|[Hlt (tv & gpre & gpost & Htv & Hgl & [gpre' Hgp] & Ht1 & _ & Hnodes & Hu')]].
  - left. rewrite Hu0 in Hu'. injection Hu' as ->. split; [exact He|]. cbn [sec_ssk]. split; [reflexivity|].
    unfold new_times. cbn [sec_ssk map filter honest_ssk sk_t]. rewrite Hkpost.
    rewrite known_true; [reflexivity|]. rewrite Hl, map_app. apply in_or_app. right. left. reflexivity.
  - right. split; [exact Hlt|]. apply tv_init_node in Htv as [Htt Hnv]; [|lia].
    destruct tv as [t0 v]; cbn [tv_time tv_vec] in *; subst t0 gpre.
    destruct (spec_fresh pp x r (sec_prng sk) true (TimeVec tar v :: gpre') (spec_reseed sk seed)) as [[ks g']|] eqn:Ef;
      rewrite Hu0 in Hu'; [|discriminate Hu']. injection Hu' as ->. pose proof (fresh_list _ _ _ _ _ _ _ _ Ef) as Hks.
    exists v, gpre', gpost. cbn [sec_ssk]. split; [exact Hnv|]. split; [exact Hgl|].
    inversion Hnodes as [|? ? [_ (w0 & _ & Hw0)] Hnodes']; subst. cbn [tv_vec] in Hw0.
    split; [eauto|]. split; [exact Hnodes'|]. split; [reflexivity|].
    unfold new_times. cbn [sec_ssk]. rewrite map_app, filter_app, Hkpost, app_nil_r, map_map. cbn [honest_ssk sk_t].
    assert (Hm : forall (l : list timevec) i, map (fun ie : nat * timevec => tv_time (snd ie)) (combine (seq i (length l)) l) = map tv_time l).
    { clear. induction l as [|a l IH]; intros i; cbn [length seq combine map snd]; [reflexivity|]. f_equal. apply IH. }
    change (S (length gpre')) with (length (TimeVec tar v :: gpre')). rewrite Hm. cbn [map tv_time].
    change (tar :: map tv_time gpre') with (map tv_time (TimeVec tar v :: gpre')).
    apply filter_all. apply Forall_map. apply Forall_forall. intros tv Htv. cbn beta.
    rewrite known_false; [reflexivity|]. intros Hin.
    rewrite Forall_forall in Hnodes. destruct (Hnodes tv Htv) as [Hntv (w & Hw & Hvw)].
    assert (Hrg : ta <= tv_time tv < ta + (pow2 (pp_depth pp - length va) - 1)).
    { apply (below_interval (pp_depth pp) ta va); [exact Hn|]. exists va, w. rewrite <- Hvw. auto. }
    assert (Hge : tar <= tv_time tv).
    { apply tiling_ge in Ht1. rewrite Forall_app in Ht1. destruct Ht1 as [Ht1 _]. rewrite Forall_map, Forall_forall in Ht1. exact (Ht1 tv Htv). }
    rewrite Hl, map_app in Hin. cbn [map honest_ssk sk_t] in Hin.
    apply in_app_or in Hin as [Hin|[Hin|Hin]].
    + apply in_map_iff in Hin as (s & Hs & Hin). rewrite Forall_forall in Hpre. specialize (Hpre s Hin). lia.
    + lia.
    + apply tiling_ge in Htil. rewrite Forall_forall in Htil. specialize (Htil _ Hin). cbn beta in Htil. lia.
Qed.

Lemma left_by_update {E} (sk sk' : seckey E) seed n : n = (length (new_times sk sk') - 1)%nat ->
  left_by n (spec_reseed sk seed) = update_cells sk sk' seed.
Proof.
  intros ->. unfold left_by, update_cells, scals. rewrite <- seq_shift, !flat_map_concat_map, !map_map. reflexivity.
Qed.

Lemma update_leaves : forall (E : env) (L : env_laws E) m m' (pp : pubparam E) pk sk t seed sk',
  pp_ok pp -> reachable m pp pk sk -> update m' pp t seed sk = (Ok tt, sk') ->
  gives (update_h m' pp t seed sk) (Ok sk') (update_cells sk sk' seed).
Proof.
  intros E L m m' pp pk sk t seed sk' Hpp Hr Hu0.
  assert (Hu : run_mut (update m' pp t seed) sk = Ok sk') by (unfold run_mut; rewrite Hu0; reflexivity).
  destruct (reachable_good L m pp pk sk Hpp Hr) as (x & _ & Hpk & Hg & _).
  destruct (update_h_spec L m' pp t seed sk) as (d & Hd & Hc). rewrite Hu in Hd, Hc.
  destruct Hc as (n & -> & _ & dt & a & post0 & Hfa & Hdu & Hn). 
  destruct (update_shape L m' pp x sk t seed sk' Hpp Hg Hu) as (pre & ta & va & r & post & Hsp & Hcase).
  assert (Ht : sec_time sk < t <= last_time (pp_depth pp)).
  { pose proof (update_cases L m' pp x sk t seed Hpp Hg) as H. destruct (in_range pp sk t) eqn:Er.
    - unfold in_range in Er. lia.
    - rewrite Hu0 in H. discriminate H. }
  destruct (find_ancestor_good pp x sk t Hpp Hg Ht) as (pre1 & ta1 & va1 & r1 & post1 & Hsp1 & Hfa1 & Hdu1).
  rewrite Hfa1 in Hfa. injection Hfa as <-. rewrite Hdu1 in Hdu. injection Hdu as _ <-.
  rewrite (split_post _ _ _ _ _ _ _ _ _ Hsp1), <- (split_post _ _ _ _ _ _ _ _ _ Hsp) in Hn.
  rewrite (left_by_update sk sk' seed n) in Hd; [exact Hd|].
  destruct Hcase as [(_ & Hs & Hnew)|(_ & v & gpre & gpost & _ & _ & _ & _ & Hs & Hnew)]; rewrite Hn, Hs, Hnew; cbn [length].
  - lia.
  - rewrite app_length, map_length, combine_length, seq_length, map_length. cbn [length]. lia.
Qed.

(** * Key generation *)
Lemma keygen_leaves : forall (E : env) (L : env_laws E) m (pp : pubparam E) seed pk sk pop,
  pp_ok pp -> key_gen seed pp = Ok (pk, sk, pop) ->
  exists g x r, gives (key_gen_h seed pp) (Ok (pk, sk, pop)) (keygen_cells pp g x r)
    /\ pk = PubKey (pp_cs pp) (g2_mul x (pp_g2 pp))
    /\ of_limbs (limbs x) = x
    /\ (forall t v msg s, node_at (pp_depth pp) t v ->
         verify m (sign_with pp (g1_mul x (pp_h pp)) t v (msg_scalar pp msg) s) pk pp msg = Ok true)
    /\ ~ no_sec_left (keygen_cells pp g x r)
    /\ spec_scalar (sha512 E) g KEY_INIT_INFO = x.
Proof.
  intros E L m pp seed pk sk pop Hpp Hk.
  destruct (Nat.lt_ge_cases (length seed) 32) as [Hs|Hs].
  { rewrite key_gen_short in Hk by exact Hs. discriminate Hk. }
  destruct (valid_cs (pp_cs pp)) eqn:Hcs.
  2:{ rewrite key_gen_bad_cs in Hk by auto. discriminate Hk. }
  pose proof (ppo_len pp Hpp) as Hlen.
  assert (Hne : pp_hlist pp <> []) by (intros He; rewrite He in Hlen; cbn [length] in Hlen; lia).
  pose proof (key_gen_h_ok L pp seed Hs Hcs Hne) as Hg. rewrite Hk in Hg.
  exists (spec_master pp seed), (spec_x pp seed), (spec_r pp seed). split; [exact Hg|].
  rewrite (key_gen_spec L) in Hk by auto. injection Hk as <- _ _.
  split; [reflexivity|]. split.
  { assert (Hx : spec_x pp seed < fr_modulus) by apply spec_scalar_lt.
    assert (Hx' : spec_x pp seed < 2 ^ 256) by (eapply N.lt_trans; [exact Hx|reflexivity]).
    generalize dependent (spec_x pp seed). intros x _ _ Hx. unfold limbs, of_limbs. cbn [fold_right].
    change (2 ^ 128) with (2 ^ 64 * 2 ^ 64). change (2 ^ 192) with (2 ^ 64 * (2 ^ 64 * 2 ^ 64)).
    assert (Hb : 2 ^ 64 <> 0) by discriminate.
    rewrite <- !N.div_div by discriminate.
    pose proof (N.div_mod x (2 ^ 64) Hb) as H0.
    pose proof (N.div_mod (x / 2 ^ 64) (2 ^ 64) Hb) as H1.
    pose proof (N.div_mod (x / 2 ^ 64 / 2 ^ 64) (2 ^ 64) Hb) as H2.
    assert (H3 : x / 2 ^ 64 / 2 ^ 64 / 2 ^ 64 < 2 ^ 64).
    { rewrite !N.div_div by discriminate. apply N.div_lt_upper_bound; [discriminate|]. exact Hx. }
    rewrite (N.mod_small (x / 2 ^ 64 / 2 ^ 64 / 2 ^ 64)) by exact H3.
    rewrite N.mul_0_r, N.add_0_r. lia. }
  split; [|split; [|reflexivity]].
  - intros t v msg s Hn. apply (verify_honest L m pp (spec_x pp seed) t v s msg (pp_cs pp)); auto.
  - intros H. unfold no_sec_left in H. rewrite Forall_forall in H.
    specialize (H (Cell "master_key_gen" "x_sec" (VInt (spec_x pp seed)))). 
    enough (Hin : sec_named "x_sec" = false) by discriminate Hin. apply H. right. right. right. left. reflexivity.
Qed.

(** * The nearest right sibling *)
Lemma sibs_head : forall rest pre acc, Forall turn rest ->
  (exists k, rest = repeat 2 k /\ sibs pre rest acc = acc)
  \/ exists u k l, rest = u ++ 1 :: repeat 2 k /\ sibs pre rest acc = (pre ++ u ++ [2]) :: l.
Proof.
  induction rest as [|a rest IH]; intros pre acc Ht; cbn [sibs].
  { left. exists 0%nat. auto. }
  inversion Ht as [|? ? Ha Ht']; subst.
  destruct (IH (pre ++ [a]) (if a =? 1 then (pre ++ [2]) :: acc else acc) Ht') as [(k & -> & ->)|(u & k & l & -> & ->)].
  - destruct Ha as [->| ->]; cbn [N.eqb Pos.eqb].
    + right. exists [], k, acc. auto.
    + left. exists (S k). auto.
  - right. exists (a :: u), k, l. split; [reflexivity|]. rewrite <- app_assoc. reflexivity.
Qed.

Lemma minus_eq {E} (L : env_laws E) (a b y : G1 E) : g1_insub y = true -> a = g1_add b y -> g1_minus a y = b.
Proof.
  intros Hy ->. unfold g1_minus. change (g1_mul (fr_modulus - 1) y) with (g1_opp y).
  rewrite <- (l1_assoc E L), (g1_opp_r L y Hy). g1_solve L.
Qed.

Lemma seg_insub {E} (pp : pubparam E) k : pp_ok pp -> Forall (fun h => g1_insub h = true) (hv_seg pp k).
Proof. intros Hpp. unfold hv_seg. apply Forall_firstn, Forall_skipn, Hpp. Qed.

Lemma hv_seg_S {E} (pp : pubparam E) k : pp_ok pp -> (k < pp_depth pp)%nat ->
  hv_seg pp k = nth (k + 1) (pp_hlist pp) g1_zero :: hv_seg pp (k + 1).
Proof.
  intros Hpp Hk. pose proof (ppo_len pp Hpp). unfold hv_seg.
  rewrite (skipn_nth (pp_hlist pp) (k + 1) g1_zero) by lia.
  replace (pp_depth pp - k)%nat with (S (pp_depth pp - (k + 1))) by lia. cbn [firstn]. f_equal.
  replace (S (k + 1)) with (k + 1 + 1)%nat by lia. reflexivity.
Qed.

Lemma recover_honest {E} (L : env_laws E) (pp : pubparam E) x p u k r rho t0 t1 :
  pp_ok pp -> (length u + 1 + k < pp_depth pp)%nat ->
  recover pp p u (honest_ssk pp x t0 (u ++ 1 :: repeat 2 k) r) (honest_ssk pp x t1 (u ++ [2]) (r + rho)) rho
  = honest_ssk pp x p u r.
Proof.
  intros Hpp Hl. pose proof (ppo_len pp Hpp) as Hlen. set (j := (length u + 1)%nat).
  assert (Hl2 : length (u ++ [2]) = j) by (rewrite app_length; reflexivity).
  assert (Hl1 : length (u ++ 1 :: repeat 2 k) = (j + k)%nat) by (rewrite app_length; cbn [length]; rewrite repeat_length; lia).
  unfold recover. rewrite !honest_hvec_len by exact Hpp. rewrite Hl1, Hl2.
  replace (pp_depth pp - j - (pp_depth pp - (j + k)))%nat with k by lia.
  assert (Hhv : map (fun ah => g1_minus (fst ah) (g1_mul rho (snd ah)))
                (combine (sk_hvec (honest_ssk pp x t1 (u ++ [2]) (r + rho))) (skipn (length u + 2) (pp_hlist pp)))
                = map (g1_mul r) (hv_seg pp j)).
  { cbn [honest_ssk sk_hvec]. rewrite Hl2. fold (hv_seg pp j).
    rewrite combine_map_same.
    - rewrite map_map. apply map_ext_in. intros a Ha. cbn [fst snd].
      pose proof (seg_insub pp j Hpp) as Hin. rewrite Forall_forall in Hin.
      apply (minus_eq L); [apply (g1_mul_insub L), Hin, Ha|]. g1_solve L.
    - rewrite hv_seg_len, skipn_length by exact Hpp. unfold j. lia.
    - rewrite hv_seg_len by exact Hpp. unfold hv_seg. replace (length u + 2)%nat with (j + 1)%nat by (unfold j; lia). reflexivity. }
  rewrite Hhv. cbn [honest_ssk sk_hpoly sk_g2r].
  set (xh := g1_mul x (pp_h pp)). set (hj := nth j (pp_hlist pp) g1_zero).
  assert (Hhj : g1_insub hj = true) by (apply (Forall_nth_insub L), Hpp).
  pose proof (node_val_insub L pp u Hpp) as Hnu.
  assert (Hn2 : node_val pp (u ++ [2]) = g1_add (node_val pp u) (g1_mul 2 hj)).
  { rewrite (node_val_app L) by (auto; lia). f_equal. fold j.
    rewrite (skipn_nth (pp_hlist pp) j g1_zero) by (unfold j; lia). cbn [lincomb]. fold hj. g1_solve L. }
  set (S2 := lincomb (repeat 2 k) (hv_seg pp j)).
  assert (HS2 : g1_insub S2 = true) by (apply (lincomb_insub L), seg_insub, Hpp).
  assert (Hn1 : node_val pp (u ++ 1 :: repeat 2 k) = g1_add (node_val pp u) (g1_add hj S2)).
  { rewrite (node_val_app L) by (auto; lia). f_equal. fold j.
    rewrite (skipn_nth (pp_hlist pp) j g1_zero) by (unfold j; lia). cbn [lincomb]. fold hj. unfold S2, hv_seg.
    rewrite lincomb_firstn by (rewrite repeat_length; unfold j in *; lia).
    replace (S j) with (j + 1)%nat by lia. g1_solve L. }
  assert (Hn2i : g1_insub (node_val pp (u ++ [2])) = true) by apply (node_val_insub L), Hpp.
  assert (HA : g1_minus (g1_add xh (g1_mul (r + rho) (node_val pp (u ++ [2])))) (g1_mul rho (node_val pp (u ++ [2])))
               = g1_add xh (g1_mul r (node_val pp (u ++ [2])))).
  { apply (minus_eq L); [apply (g1_mul_insub L), Hn2i|g1_solve L]. }
  rewrite HA, (lincomb_scale L). fold S2.
  assert (HB : g1_minus (g1_add xh (g1_mul r (node_val pp (u ++ 1 :: repeat 2 k)))) (g1_mul r S2)
               = g1_add xh (g1_mul r (g1_add (node_val pp u) hj))).
  { apply (minus_eq L); [apply (g1_mul_insub L), HS2|rewrite Hn1; g1_solve L]. }
  rewrite HB. assert (Hxh : g1_insub xh = true) by (apply (g1_mul_insub L), Hpp).
  assert (HC : g1_minus (g1_add xh (g1_mul r (node_val pp (u ++ [2])))) (g1_add xh (g1_mul r (g1_add (node_val pp u) hj))) = g1_mul r hj).
  { apply (minus_eq L); [apply (l1_sub_add E L); [exact Hxh|apply (g1_mul_insub L), (l1_sub_add E L); assumption]|rewrite Hn2; g1_solve L]. }
  rewrite HC.
  assert (HD : g1_minus (g1_add xh (g1_mul r (node_val pp (u ++ [2])))) (g1_mul 2 (g1_mul r hj)) = g1_add xh (g1_mul r (node_val pp u))).
  { apply (minus_eq L); [apply (g1_mul_insub L), (g1_mul_insub L), Hhj|rewrite Hn2; g1_solve L]. }
  rewrite HD.
  unfold honest_ssk. fold xh. f_equal. fold (hv_seg pp (length u)). rewrite (hv_seg_S pp (length u)) by (auto; lia). reflexivity.
Qed.

Lemma update_recovers_past : forall (E : env) (L : env_laws E) m m' (pp : pubparam E) pk sk t seed sk',
  pp_ok pp -> reachable m pp pk sk -> update m' pp t seed sk = (Ok tt, sk') ->
  (2 <= length (new_times sk sk'))%nat ->
  exists s0 s1 rest p u,
    sec_ssk sk' = s0 :: s1 :: rest
    /\ node_at (pp_depth pp) p u /\ sec_time sk <= p < t
    /\ forall m'' g msg, exists s,
         fst (sign_present m'' p pp msg (SecKey (pp_cs pp) p [recover pp p u s0 s1 (added (sha512 E) (spec_reseed sk seed) 1)] g)) = Ok s
         /\ verify m'' s pk pp msg = Ok true.
Proof.
  intros E L m m' pp pk sk t seed sk' Hpp Hr Hu0 Hlen.
  assert (Hu : run_mut (update m' pp t seed) sk = Ok sk') by (unfold run_mut; rewrite Hu0; reflexivity).
  destruct (reachable_good L m pp pk sk Hpp Hr) as (x & _ & Hpk & Hgood & Hcs).
  pose proof (ppo_depth pp Hpp) as Hd. set (D := pp_depth pp) in *.
  destruct (update_shape L m' pp x sk t seed sk' Hpp Hgood Hu) as (pre & ta & va & r & post & Hsp & Hcase).
  destruct Hcase as [(_ & _ & Hnew)|(Hlt & v & gpre & gpost & Hnv & Hgl & (w & Hw) & Hnodes & Hs & Hnew)];
    rewrite Hnew in Hlen; cbn [length] in Hlen; [lia|].
  destruct gpre as [|q gpre]; [cbn [map length] in Hlen; lia|].
  inversion Hnodes as [|? ? [Hnq (wq & Hwq & Hvq)] _]; subst.
  (* the nearest sibling *)
  destruct (node_at_turn _ _ _ Hnv) as [Hturn Hlv].
  destruct (proj1 (node_at_ptime D t (va ++ w)) Hnv) as [Hval Htv].
  assert (Hgl2 : gamma_list m' (TimeVec t (va ++ w)) D = Ok (map (mk_tv D) ((va ++ w) :: sibs [] (va ++ w) []))).
  { unfold gamma_list. cbn [tv_vec]. change [TimeVec t (va ++ w)] with (TimeVec t (va ++ w) :: map (mk_tv D) []).
    rewrite (gamma_loop_sibs m' D) by (auto; lia). cbn [map]. unfold mk_tv at 2. rewrite <- Htv. reflexivity. }
  fold D in Hgl, Hnv, Hnq. rewrite Hgl in Hgl2. injection Hgl2 as _ Hgl2.
  destruct (sibs_head (va ++ w) [] [] Hturn) as [(k & Hk & Hsb)|(u & k & l & Hvu & Hsb)].
  { rewrite Hsb in Hgl2. discriminate Hgl2. }
  rewrite Hsb in Hgl2. cbn [map app] in Hgl2. injection Hgl2 as Hq _.
  assert (Hqv : tv_vec q = u ++ [2]) by (rewrite Hq; reflexivity).
  (* the parent is at or below the delegator *)
  rewrite Hqv in Hvq.
  destruct (exists_last Hwq) as (w' & y & Hw'). rewrite Hw', app_assoc in Hvq. apply app_inj_tail in Hvq as [Hu' Hy].
  rewrite Hqv in Hnq. apply node_at_ptime in Hnq as [Hvalq Htq].
  assert (Hvu' : valid_path D u) by (apply (valid_app_l _ _ _ Hvalq)).
  assert (Hnu : node_at D (ptime D u) u) by (apply node_at_ptime; auto).
  destruct Hsp as [Hl Hn Hc Hpre Htil Hpost].
  assert (Hta : ta <= ptime D u).
  { apply (below_interval D ta va); [exact Hn|]. exists va, w'. rewrite <- Hu'. auto. }
  assert (Hsk : sec_time sk <= ta).
  { pose proof (gsk_til _ _ _ Hgood) as Ht. apply tiling_ge in Ht. rewrite Forall_map, Forall_forall in Ht.
    apply (Ht (honest_ssk pp x ta va r)). rewrite Hl. apply in_or_app. right. left. reflexivity. }
  assert (Hpt : ptime D u < t).
  { assert (Hb : ptime D u <= t).
    { apply (below_interval D (ptime D u) u); [exact Hnu|]. exists u, (1 :: repeat 2 k). rewrite <- Hvu. auto. }
    assert (Hne : ptime D u <> t).
    { intros He. rewrite He in Hnu. pose proof (node_at_fun _ _ _ _ Hnu Hnv) as Hf. rewrite Hvu in Hf.
      rewrite <- (app_nil_r u) in Hf at 1. apply app_inv_head in Hf. discriminate Hf. }
    lia. }
  cbn [length seq combine map app fst snd tv_time tv_vec] in Hs.
  set (rho := added (sha512 E) (spec_reseed sk seed) 1) in Hs. rewrite Hqv in Hs.
  cbn [added] in Hs. rewrite N.add_0_r in Hs. rewrite Hvu in Hs.
  eexists _, _, _, (ptime D u), u.
  split; [exact Hs|]. split; [exact Hnu|]. split; [lia|].
  intros m'' g msg. fold rho.
  rewrite (recover_honest L).
  2: exact Hpp.
  2: { fold D. destruct Hval as [_ Hlen']. rewrite Hvu, app_length in Hlen'. cbn [length] in Hlen'. rewrite repeat_length in Hlen'. lia. }
  set (sk1 := SecKey (pp_cs pp) (ptime D u) [honest_ssk pp x (ptime D u) u r] g).
  unfold sign_present, sbind, sget, slift. cbn [sk1 sec_time]. rewrite N.eqb_refl. cbn [negb fst].
  unfold sign_bytes. rewrite Hcs. cbn [negb]. cbn [sk1 sec_cs sec_time sec_prng]. rewrite !N.eqb_refl. cbn [negb].
  rewrite sample_spec by exact (hash_len_env L). cbn [bind]. rewrite (hash_msg_spec L). cbn [bind].
  change (ptime D u) with (sec_time sk1).
  rewrite (sign_fr_honest L m'' pp x sk1 [] u r) by (auto; exact Hnu).
  eexists. split; [reflexivity|]. apply (verify_honest L); auto.
Qed.

Lemma leftover_recovers_past : forall (E : env) (L : env_laws E) m m' (pp : pubparam E) pk sk t seed sk',
  pp_ok pp -> reachable m pp pk sk -> update m' pp t seed sk = (Ok tt, sk') ->
  (2 <= length (new_times sk sk'))%nat ->
  exists d s0 s1 rest rho p u,
    gives (update_h m' pp t seed sk) (Ok sk') d
    /\ In (Cell "randomization" "r" (VInt rho)) d
    /\ sec_ssk sk' = s0 :: s1 :: rest
    /\ node_at (pp_depth pp) p u /\ sec_time sk <= p < t
    /\ forall m'' g msg, exists s,
         fst (sign_present m'' p pp msg (SecKey (pp_cs pp) p [recover pp p u s0 s1 rho] g)) = Ok s
         /\ verify m'' s pk pp msg = Ok true.
Proof.
  intros E L m m' pp pk sk t seed sk' Hpp Hr Hu Hlen.
  destruct (update_recovers_past E L m m' pp pk sk t seed sk' Hpp Hr Hu Hlen) as (s0 & s1 & rest & p & u & H).
  exists (update_cells sk sk' seed), s0, s1, rest, (added (sha512 E) (spec_reseed sk seed) 1), p, u.
  split; [exact (update_leaves E L m m' pp pk sk t seed sk' Hpp Hr Hu)|]. split; [|exact H].
  unfold update_cells. destruct (length (new_times sk sk')) as [|[|n]]; [lia|lia|]. cbn [Nat.sub seq flat_map draw_cells app]. right. left. reflexivity.
Qed.

(** * Two signatures *)
Lemma minus2_eq {E} (L : env_laws E) (a b y : G2 E) : g2_insub y = true -> a = g2_add b y -> g2_minus a y = b.
Proof.
  intros Hy ->. unfold g2_minus. rewrite <- (l2_assoc E L).
  assert (Hz : g2_add y (g2_mul (fr_modulus - 1) y) = g2_zero).
  { rewrite <- (l2_order E L y Hy). rewrite <- (l2_mul1 E L y) at 1. rewrite <- (l2_mul_add E L). reflexivity. }
  rewrite Hz. g2_solve L.
Qed.

Lemma combine_honest {E} (L : env_laws E) (pp : pubparam E) x t v r k1 k2 M1 M2 c M :
  pp_ok pp -> M1 < fr_modulus -> M2 < fr_modulus -> (c * (M1 + (fr_modulus - M2))) mod fr_modulus = 1 ->
  combine_sigs pp t v (honest_sig pp x t v M1 (r + k1)) (honest_sig pp x t v M2 (r + k2)) k1 k2 M1 M2 c M
  = honest_sig pp x t v M r.
Proof.
  intros Hpp H1 H2 Hc. pose proof (ppo_len pp Hpp) as Hlen. unfold combine_sigs.
  cbn [honest_sig sig_1 sig_2]. set (xh := g1_mul x (pp_h pp)).
  assert (Hxh : g1_insub xh = true) by (apply (g1_mul_insub L), Hpp).
  assert (Hb : forall k Mi, g1_minus (g1_add xh (g1_mul (r + k) (sig_val pp v Mi))) (g1_mul k (sig_val pp v Mi))
               = g1_add xh (g1_mul r (sig_val pp v Mi))).
  { intros k Mi. apply (minus_eq L); [apply (g1_mul_insub L), (sig_val_insub L), Hpp|g1_solve L]. }
  rewrite !Hb. unfold sig_val. set (nv := node_val pp v). set (hd := nth (pp_depth pp) (pp_hlist pp) g1_zero).
  assert (Hhd : g1_insub hd = true) by (apply (Forall_nth_insub L), Hpp).
  assert (Hnv : g1_insub nv = true) by (apply (node_val_insub L), Hpp).
  set (rh := g1_mul r hd). assert (Hrh : g1_insub rh = true) by (apply (g1_mul_insub L), Hhd).
  assert (Hbi : forall Mi, g1_insub (g1_add xh (g1_mul r (g1_add nv (g1_mul Mi hd)))) = true).
  { intros Mi. apply (l1_sub_add E L); [exact Hxh|]. apply (g1_mul_insub L), (l1_sub_add E L); [exact Hnv|]. apply (g1_mul_insub L), Hhd. }
  assert (HD : g1_minus (g1_add xh (g1_mul r (g1_add nv (g1_mul M1 hd)))) (g1_add xh (g1_mul r (g1_add nv (g1_mul M2 hd))))
               = g1_mul (M1 + (fr_modulus - M2)) rh).
  { apply (minus_eq L); [apply Hbi|].
    assert (Hq : g1_add (g1_mul (M1 + (fr_modulus - M2)) rh) (g1_mul M2 rh) = g1_mul M1 rh).
    { rewrite <- (l1_mul_add E L). replace (M1 + (fr_modulus - M2) + M2) with (M1 + fr_modulus) by lia.
      rewrite (l1_mul_add E L), (l1_order E L rh Hrh). g1_solve L. }
    transitivity (g1_add (g1_add xh (g1_mul r nv)) (g1_mul M1 rh)); [unfold rh; g1_solve L|].
    rewrite <- Hq. unfold rh. g1_solve L. }
  assert (Hrr : g1_mul c (g1_mul (M1 + (fr_modulus - M2)) rh) = rh).
  { rewrite <- (l1_mul_mul E L), (mul_mod L rh _ Hrh), Hc. apply (l1_mul1 E L). }
  rewrite HD, Hrr.
  unfold honest_sig, sig_val. fold nv hd xh. f_equal.
  - apply (minus2_eq L); [apply (g2_mul_insub L), Hpp|g2_solve L].
  - apply (minus_eq L); [apply (g1_mul_insub L), Hrh|]. unfold rh. g1_solve L.
Qed.

Lemma inverse_ex M1 M2 : M1 < fr_modulus -> M2 < fr_modulus -> M1 <> M2 ->
  exists c, (c * (M1 + (fr_modulus - M2))) mod fr_modulus = 1.
Proof.
  intros H1 H2 Hne. pose proof fr_modulus_nz as Hq. set (q := Z.of_N fr_modulus).
  set (s := (Z.of_N M1 - Z.of_N M2)%Z).
  assert (Hs : ~ (q | s)%Z).
  { intros [z Hz]. assert (q > 0)%Z by (unfold q; lia). assert (-q < s < q)%Z by (unfold q, s; lia).
    assert (z = 0)%Z by nia. subst z. unfold s in Hz. lia. }
  destruct (zinv_ok s Hs) as [z Hz]. exists (Z.to_N (zinv s mod q)).
  assert (Hq0 : (0 < q)%Z) by (unfold q; lia).
  pose proof (Z.mod_pos_bound (zinv s) q Hq0) as Hb.
  apply N2Z.inj. rewrite N2Z.inj_mod by exact Hq. rewrite N2Z.inj_mul, Z2N.id by lia.
  rewrite N2Z.inj_add, N2Z.inj_sub by lia. fold q.
  replace (Z.of_N M1 + (q - Z.of_N M2))%Z with (s + 1 * q)%Z by (unfold s; ring).
  rewrite Z.mul_mod, Z.mod_mod, Z.mod_add, <- Z.mul_mod by lia.
  replace (zinv s * s)%Z with (1 + z * q)%Z by (fold q in Hz; lia).
  rewrite Z.mod_add by lia. apply Z.mod_small. split; [lia|]. unfold q. reflexivity.
Qed.

Lemma nonces_forge : forall (E : env) (L : env_laws E) m m' (pp : pubparam E) pk sk t msg1 msg2 s1 s2,
  pp_ok pp -> reachable m pp pk sk ->
  sign_present m' t pp msg1 sk = (Ok s1, sk) -> sign_present m' t pp msg2 sk = (Ok s2, sk) ->
  msg_scalar pp msg1 <> msg_scalar pp msg2 ->
  let k msg := spec_scalar (sha512 E) (sec_prng sk) (sign_info msg t) in
  exists v c,
    sec_time sk = t /\ node_at (pp_depth pp) t v
    /\ forall m'' msg,
         verify m'' (combine_sigs pp t v s1 s2 (k msg1) (k msg2) (msg_scalar pp msg1) (msg_scalar pp msg2) c (msg_scalar pp msg)) pk pp msg = Ok true.
Proof.
  intros E L m m' pp pk sk t msg1 msg2 s1 s2 Hpp Hr Hs1 Hs2 Hne k.
  destruct (reachable_good L m pp pk sk Hpp Hr) as (x & _ & -> & Hg & Hcs).
  assert (Ht : sec_time sk = t).
  { pose proof (sign_present_cases L m' pp x sk t msg1 Hpp Hcs Hg) as H. destruct (N.eqb_spec (sec_time sk) t); [assumption|].
    rewrite Hs1 in H. discriminate H. }
  destruct (good_sk_head pp x sk Hg) as (v & r & ssks & Hn & Hs).
  assert (Hsig : forall msg s, sign_present m' t pp msg sk = (Ok s, sk) ->
     s = honest_sig pp x t v (msg_scalar pp msg) (r + spec_scalar (sha512 E) (sec_prng sk) (sign_info msg t))).
  { intros msg s. unfold sign_present, sbind, sget, slift. rewrite <- Ht, N.eqb_refl. cbn [negb].
    destruct (sign_bytes_good L m' pp x sk msg Hpp Hcs Hg) as (v' & r' & Hn' & [ssks' Hs'] & ->).
    pose proof (node_at_fun _ _ _ _ Hn Hn') as <-. intros [= <-].
    unfold sign_bytes in *. pose proof (sign_fr_honest L m' pp x sk ssks v r (msg_scalar pp msg)
      (spec_scalar (sha512 E) (sec_prng sk) (sign_info msg (sec_time sk))) Hpp Hn Hs) as Ha.
    rewrite (sign_fr_honest L m' pp x sk ssks' v r' (msg_scalar pp msg)
      (spec_scalar (sha512 E) (sec_prng sk) (sign_info msg (sec_time sk))) Hpp Hn Hs') in Ha.
    injection Ha as Ha1 Ha2. unfold honest_sig. rewrite Ha1, Ha2. reflexivity. }
  destruct (inverse_ex (msg_scalar pp msg1) (msg_scalar pp msg2) (msg_scalar_lt pp msg1) (msg_scalar_lt pp msg2) Hne) as [c Hc].
  exists v, c. split; [exact Ht|].
  rewrite Ht in Hn. split; [exact Hn|]. intros m'' msg.
  unfold k. rewrite (Hsig msg1 s1 Hs1), (Hsig msg2 s2 Hs2). rewrite (combine_honest L) by (auto using msg_scalar_lt).
  apply (verify_honest L); auto.
Qed.

Lemma leftover_forges : forall (E : env) (L : env_laws E) m m' (pp : pubparam E) pk sk t msg1 msg2 s1 s2,
  pp_ok pp -> reachable m pp pk sk ->
  sign_present m' t pp msg1 sk = (Ok s1, sk) -> sign_present m' t pp msg2 sk = (Ok s2, sk) ->
  msg_scalar pp msg1 <> msg_scalar pp msg2 ->
  exists d1 d2 k1 k2 v c,
    gives (sign_present_h m' t pp msg1 sk) (Ok s1) d1 /\ gives (sign_present_h m' t pp msg2 sk) (Ok s2) d2
    /\ In (Cell "sign_fr" "r" (VInt k1)) d1 /\ In (Cell "sign_fr" "r" (VInt k2)) d2
    /\ node_at (pp_depth pp) t v
    /\ forall m'' msg,
         verify m'' (combine_sigs pp t v s1 s2 k1 k2 (msg_scalar pp msg1) (msg_scalar pp msg2) c (msg_scalar pp msg)) pk pp msg = Ok true.
Proof.
  intros E L m m' pp pk sk t msg1 msg2 s1 s2 Hpp Hr Hs1 Hs2 Hne.
  destruct (nonces_forge E L m m' pp pk sk t msg1 msg2 s1 s2 Hpp Hr Hs1 Hs2 Hne) as (v & c & _ & Hn & H).
  assert (Hleft : forall msg s, sign_present m' t pp msg sk = (Ok s, sk) ->
     gives (sign_present_h m' t pp msg sk) (Ok s) (sign_cells pp sk t msg)).
  { intros msg s Hs. destruct (sign_present_h_spec L m' t pp msg sk) as (d & Hd & Hc). rewrite Hs in Hd, Hc. cbn [fst] in Hd, Hc.
    rewrite <- Hc. exact Hd. }
  exists (sign_cells pp sk t msg1), (sign_cells pp sk t msg2),
    (spec_scalar (sha512 E) (sec_prng sk) (sign_info msg1 t)), (spec_scalar (sha512 E) (sec_prng sk) (sign_info msg2 t)), v, c.
  split; [apply Hleft, Hs1|]. split; [apply Hleft, Hs2|].
  split; [right; right; left; reflexivity|]. split; [right; right; left; reflexivity|]. split; [exact Hn|exact H].
Qed.

(** What signing leaves *)
Lemma sign_leaves : forall (E : env) (L : env_laws E) m (pp : pubparam E) sk t msg s,
  sign_present m t pp msg sk = (Ok s, sk) -> gives (sign_present_h m t pp msg sk) (Ok s) (sign_cells pp sk t msg).
Proof.
  intros E L m pp sk t msg s H. destruct (sign_present_h_spec L m t pp msg sk) as (d & Hd & Hc).
  rewrite H in Hd, Hc. cbn [fst] in Hd, Hc. rewrite <- Hc. exact Hd.
Qed.

(** * Serialization and digest *)
Lemma serialize_leaves : forall (E : env) (sk : seckey E) c w,
  wf_sk sk ->
  gives (sk_serialize_h sk c w) (run_mut (sk_serialize sk c) w)
    (map hv_cell (sec_ssk sk) ++ match run_mut (sk_serialize sk c) w with Ok _ => [] | _ => [buf_cell (sk_blob c sk)] end).
Proof.
  intros E sk c w Hw. pose proof (sk_ok_bool sk Hw) as Hb. apply andb_true_iff in Hb as [H1 H2].
  destruct (sk_serialize_h_spec sk c w) as (d & Hd & _ & Hok & _). rewrite (Hok H1 H2) in Hd. exact Hd.
Qed.

Lemma digest_leaves : forall (E : env) (L : env_laws E) (sk : seckey E),
  wf_sk sk ->
  exists dig, gives (digest_h sk) (Ok dig)
    (map hv_cell (sec_ssk sk) ++ [Cell "digest" "hashinput" (VBytes (repeat 0 (sk_size sk) ++ sk_blob true sk))])
  /\ from_slice (sk_deserialize true) (skipn (sk_size sk) (repeat 0 (sk_size sk) ++ sk_blob true sk)) = Ok sk.
Proof.
  intros E L sk Hw. destruct (digest_h_spec sk) as (d & Hd & Hok).
  assert (Hdig : exists dig, sk_digest sk = Ok dig).
  { unfold sk_digest. pose proof (sk_aon sk true) as Ha. rewrite (sk_ok_bool sk Hw) in Ha.
    rewrite (aon_vec _ _ (repeat 0 (sk_size sk)) Ha). eauto. }
  destruct Hdig as [dig Hdig]. exists dig. rewrite Hdig in Hd, Hok. rewrite (Hok dig eq_refl) in Hd. split; [exact Hd|].
  rewrite skipn_app, skipn_all2 by (rewrite repeat_length; lia).
  rewrite repeat_length, Nat.sub_diag. cbn [skipn app]. apply (slice_sk L), Hw.
Qed.
