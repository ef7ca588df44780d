(** Lemmas for C47: pixel-python and the Rust crate compute the same keys, signatures
    and bytes. *)
From Coq Require Import String Sorted.
From Verif Require Import Base Env Time Hkdf Prng SubKey SecretKey Keys Sig IO Serdes Api Python
  SpecTime TimeFacts NMod GroupFacts SpecPrng PrngFacts SpecKey SubKeyFacts SpecUpdate UpdateFacts KeyFacts
  SpecSer IOFacts SerFacts HistoryFacts KeyProps SerProps SpecFfi SpecPy SpecColl CollProps.
From Coq Require Import ZifyBool ZifyNat ZifyN.
Local Open Scope N_scope.

(** * prng *)
Lemma py_os2ip_spec l : py_os2ip l = os2ip l.
Proof.
  unfold py_os2ip, os2ip. generalize 0. induction l as [|b l IH]; intros x; cbn [fold_left]; [reflexivity|].
  rewrite IH. f_equal. rewrite N.shiftl_mul_pow2. change (2^8) with 256. lia.
Qed.
Lemma py_i2osp4_spec t : t < 2^32 -> py_i2osp4 t = Some (be4 t).
Proof.
  intros H. unfold py_i2osp4, be4. replace (t <? 2^32) with true by lia.
  change 255 with (N.ones 8). rewrite !N.land_ones, !N.shiftr_div_pow2. reflexivity.
Qed.
Lemma py_stu_spec H g info : hash_len H ->
  py_sample_then_update H g info = Some (spec_scalar H g info, spec_next H g info).
Proof.
  intros HH. unfold py_sample_then_update. rewrite hkdf_expand_128 by exact HH.
  rewrite firstn_app_len, skipn_app_len by (apply T1_len, HH). rewrite py_os2ip_spec. reflexivity.
Qed.
Lemma py_sample_spec H g info : hash_len H -> py_sample H g info = Some (spec_scalar H g info).
Proof.
  intros HH. unfold py_sample. rewrite hkdf_expand_64 by exact HH. rewrite py_os2ip_spec. reflexivity.
Qed.
Lemma py_rerandomize_spec H g seed info : hash_len H ->
  py_rerandomize H g seed info = Some (spec_rerandomize H g seed info).
Proof.
  intros HH. unfold py_rerandomize. rewrite hkdf_expand_128 by exact HH.
  rewrite firstn_app_len, skipn_app_len by (apply T1_len, HH). unfold hkdf_extract. rewrite hmac_rfc by exact HH. reflexivity.
Qed.

(** * time *)
Lemma py_time_to_vec_path : forall d v, valid_path d v -> py_time_to_vec (ptime d v) d = Some v.
Proof.
  induction d as [|d IH]; intros v Hv; [destruct (valid_not0 _ Hv)|].
  destruct v as [|x v]; [reflexivity|]. apply valid_cons_inv in Hv as [Hx Hv].
  pose proof (ptime_ge1 d v). pose proof (ptime_le d v Hv). pose proof (pow2_pos d).
  cbn [ptime py_time_to_vec]. fold (pow2 d). specialize (IH v Hv).
  destruct Hx as [-> | ->]; cbn [N.eqb Pos.eqb].
  - replace (1 + ptime d v =? 0) with false by lia. replace (1 + ptime d v =? 1) with false by lia.
    replace (pow2 d <? 1 + ptime d v) with false by lia.
    replace (1 + ptime d v - 1) with (ptime d v) by lia. rewrite IH. reflexivity.
  - replace (pow2 d + ptime d v =? 0) with false by lia. replace (pow2 d + ptime d v =? 1) with false by lia.
    replace (pow2 d <? pow2 d + ptime d v) with true by lia.
    replace (pow2 d + ptime d v - pow2 d) with (ptime d v) by lia. rewrite IH. reflexivity.
Qed.
Lemma py_time_to_vec_node d t v : node_at d t v -> py_time_to_vec t d = Some v.
Proof. intros H. apply node_at_ptime in H as [H ->]. apply py_time_to_vec_path, H. Qed.
Lemma py_vec_to_time_path : forall d v, valid_path d v -> py_vec_to_time v d = Some (ptime d v).
Proof.
  induction d as [|d IH]; intros v Hv; [destruct (valid_not0 _ Hv)|].
  destruct v as [|x v]; [reflexivity|]. apply valid_cons_inv in Hv as [Hx Hv].
  cbn [ptime py_vec_to_time]. fold (pow2 d). rewrite (IH v Hv). pose proof (pow2_pos d). f_equal.
  destruct Hx as [-> | ->]; cbn [N.eqb Pos.eqb]; lia.
Qed.
Lemma py_gammat_sibs : forall rest pre acc, py_gammat_loop pre rest acc = sibs pre rest acc.
Proof. induction rest as [|x rest IH]; intros pre acc; cbn [py_gammat_loop sibs]; auto. Qed.
Lemma py_gammat_spec m d t v gl : (d < 64)%nat -> node_at d t v ->
  gamma_list m (TimeVec t v) d = Ok gl -> py_gammat v = map tv_vec gl /\ Forall (fun tv => py_vec_to_time (tv_vec tv) d = Some (tv_time tv)) gl.
Proof.
  intros Hd Hn Hg. apply node_at_ptime in Hn as [Hv ->].
  unfold gamma_list in Hg. cbn [tv_vec] in Hg.
  change [TimeVec (ptime d v) v] with (TimeVec (ptime d v) v :: map (mk_tv d) []) in Hg.
  rewrite gamma_loop_sibs in Hg by auto. injection Hg as <-.
  split.
  - unfold py_gammat. rewrite py_gammat_sibs. cbn [map tv_vec]. f_equal. rewrite map_map.
    rewrite <- (map_id (sibs [] v [])) at 1. apply map_ext. reflexivity.
  - constructor; [apply py_vec_to_time_path, Hv|]. rewrite Forall_map.
    eapply Forall_impl; [|apply (sibs_valid d [] v []); auto]. intros p Hp. apply py_vec_to_time_path, Hp.
Qed.

(** * Sub keys *)
Lemma py_poly_lin {E} (L : env_laws E) (hlist : list (G1 E)) : forall tv i acc,
  (i + length tv < length hlist)%nat ->
  py_poly_loop hlist i tv acc = Some (g1_add acc (lincomb tv (skipn (i + 1) hlist))).
Proof.
  induction tv as [|x tv IH]; intros i acc Hl; cbn [py_poly_loop lincomb].
  - f_equal. g1_solve L.
  - cbn [length] in Hl. unfold py_nth. rewrite (nth_error_nth' hlist g1_zero) by lia.
    rewrite IH by lia. f_equal.
    rewrite (skipn_nth hlist (i + 1) g1_zero) by lia. cbn [lincomb].
    replace (S (i + 1)) with (S i + 1)%nat by lia. g1_solve L.
Qed.
Lemma py_poly_node {E} (L : env_laws E) (pp : pubparam E) v :
  pp_ok pp -> (length v < pp_depth pp)%nat ->
  py_poly_loop (pp_hlist pp) 0 v (nth 0 (pp_hlist pp) g1_zero) = Some (node_val pp v).
Proof. intros Hpp Hl. pose proof (ppo_len pp Hpp). rewrite (py_poly_lin L) by lia. reflexivity. Qed.
Lemma py_hv_ok {E : env} (hlist : list (G1 E)) r : forall hv base,
  (base + length hv <= length hlist)%nat ->
  py_hv_loop hlist base r hv
  = Some (map (fun xh => g1_add (g1_mul r (snd xh)) (fst xh)) (combine hv (skipn base hlist))).
Proof.
  induction hv as [|x hv IH]; intros base Hl; cbn [py_hv_loop length] in *.
  - reflexivity.
  - unfold py_nth. rewrite (nth_error_nth' hlist g1_zero) by lia. rewrite IH by lia.
    rewrite (skipn_nth hlist base g1_zero) by lia. reflexivity.
Qed.
Lemma py_del_lin {E} (L : env_laws E) : forall ts (hv : list (G1 E)) hp,
  (length ts <= length hv)%nat -> py_del_loop hv ts hp = Some (g1_add hp (lincomb ts hv)).
Proof.
  induction ts as [|t ts IH]; intros hv hp Hl; cbn [py_del_loop lincomb].
  - f_equal. g1_solve L.
  - destruct hv as [|h hv]; cbn [length] in Hl; [lia|]. rewrite IH by lia. f_equal. g1_solve L.
Qed.

Lemma py_delegate_honest {E} (L : env_laws E) (pp : pubparam E) x t v t' w r :
  pp_ok pp -> node_at (pp_depth pp) t v -> node_at (pp_depth pp) t' (v ++ w) ->
  py_delegate (pp_depth pp) (honest_ssk pp x t v r) t' = Some (honest_ssk pp x t' (v ++ w) r).
Proof.
  intros Hpp Hn Hn'. unfold py_delegate. cbn [honest_ssk sk_t sk_g2r sk_hpoly sk_hvec].
  rewrite (py_time_to_vec_node _ _ _ Hn), (py_time_to_vec_node _ _ _ Hn').
  destruct (node_at_turn _ _ _ Hn) as [_ Hl]. destruct (node_at_turn _ _ _ Hn') as [_ Hl'].
  rewrite app_length in Hl'.
  rewrite skipn_app, skipn_all, Nat.sub_diag. cbn [skipn app]. fold (hv_seg pp (length v)).
  rewrite (py_del_lin L) by (rewrite map_length, hv_seg_len by auto; lia).
  f_equal. rewrite !app_length. unfold honest_ssk. f_equal.
  - rewrite (lincomb_scale L). unfold hv_seg. rewrite lincomb_firstn by lia.
    rewrite (node_val_app L) by (auto; lia). g1_solve L.
  - rewrite skipn_map. f_equal. unfold hv_seg. rewrite skipn_firstn_comm, skipn_skipn.
    replace (pp_depth pp - length v - (length v + length w - length v))%nat
      with (pp_depth pp - (length v + length w))%nat by lia.
    rewrite app_length. f_equal. f_equal. lia.
Qed.

Lemma py_randomization_honest {E} (L : env_laws E) (pp : pubparam E) x t v r r' :
  pp_ok pp -> node_at (pp_depth pp) t v ->
  py_randomization pp (honest_ssk pp x t v r) r' = Some (honest_ssk pp x t v (r + r')).
Proof.
  intros Hpp Hn. pose proof (ppo_depth pp Hpp) as Hd. pose proof (ppo_len pp Hpp) as Hlen.
  destruct (node_at_turn _ _ _ Hn) as [Ht Hl].
  unfold py_randomization. cbn [honest_ssk sk_t sk_g2r sk_hpoly sk_hvec].
  unfold py_nth at 1. rewrite (nth_error_nth' (pp_hlist pp) g1_zero) by lia.
  rewrite (py_time_to_vec_node _ _ _ Hn), (py_poly_node L) by auto.
  fold (hv_seg pp (length v)). rewrite py_hv_ok.
  2:{ rewrite map_length, hv_seg_len by auto. lia. }
  f_equal. unfold honest_ssk. f_equal.
  - g2_solve L.
  - g1_solve L.
  - fold (hv_seg pp (length v)). rewrite combine_map_same.
    + rewrite map_map. apply map_ext. intros a. cbn [fst snd]. g1_solve L.
    + rewrite hv_seg_len, skipn_length by auto. lia.
    + rewrite hv_seg_len by auto. unfold hv_seg. f_equal. f_equal. lia.
Qed.

(** * key_gen *)
Lemma py_key_gen_agrees : forall (E : env) (L : env_laws E) (pp : pubparam E) seed pk sk pop,
  pp_ok pp -> py_params pp ->
  key_gen seed pp = Ok (pk, sk, pop) -> py_key_gen pp seed = Some (pk_pk pk, py_view sk).
Proof.
  intros E L pp seed pk sk pop Hpp [Hcs Hlen _] Hk.
  destruct (Nat.lt_ge_cases (length seed) 32) as [Hs|Hs].
  { rewrite key_gen_short in Hk by exact Hs. discriminate. }
  rewrite (key_gen_spec L) in Hk by (auto; rewrite Hcs; reflexivity). injection Hk as <- <- <-.
  unfold py_view. cbn [pk_pk sec_prng sec_ssk].
  unfold py_key_gen. rewrite py_stu_spec by apply (hash_len_env L).
  rewrite py_stu_spec by apply (hash_len_env L).
  unfold py_nth. rewrite (nth_error_nth' (pp_hlist pp) g1_zero) by lia.
  assert (Hm : py_prng_init (sha512 E) seed (str "Pixel master key" ++ [0]) = spec_master pp seed).
  { unfold spec_master, py_prng_init, hkdf_extract. rewrite Hcs. apply hmac_rfc, (hash_len_env L). }
  rewrite Hm. change (str "key initialization") with KEY_INIT_INFO.
  change (str "Pixel secret key init" ++ [0; 0; 0; 1]) with SK_INIT_INFO.
  fold (spec_x pp seed). fold (spec_g1 pp seed). fold (spec_r pp seed). fold (spec_g2 pp seed).
  f_equal. f_equal. f_equal. f_equal. unfold honest_ssk. f_equal.
  - unfold node_val. cbn [lincomb]. g1_solve L.
  - f_equal. cbn [length]. rewrite firstn_all2; [reflexivity|]. rewrite skipn_length. lia.
Qed.

(** * sk_update *)
Lemma prng_eqb_nil (g : prng) : length g = 64%nat -> prng_eqb g [] = false.
Proof. destruct g; [discriminate|reflexivity]. Qed.

Lemma py_rand_fresh {E} (L : env_laws E) (pp : pubparam E) x r : forall gl g, pp_ok pp ->
  Forall (fun tv => node_at (pp_depth pp) (tv_time tv) (tv_vec tv)) gl ->
  py_rand_loop pp (map (fun tv => honest_ssk pp x (tv_time tv) (tv_vec tv) r) gl) g
  = spec_fresh pp x r [] false gl g.
Proof.
  induction gl as [|tv gl IH]; intros g Hpp Hn; [reflexivity|]. inversion Hn; subst.
  cbn [map py_rand_loop spec_fresh]. rewrite py_stu_spec by apply (hash_len_env L).
  rewrite (py_randomization_honest L) by auto. rewrite IH by auto.
  rewrite prng_eqb_nil by (apply T2_len, (hash_len_env L)).
  change (str "Pixel secret key update") with DOM_SEP_SK_UPDATE.
  destruct (spec_fresh _ _ _ _ _ _ _) as [[ks g']|]; reflexivity.
Qed.
Lemma spec_fresh_old {E} (L : env_laws E) (pp : pubparam E) x r old : forall gl first g ks g',
  spec_fresh pp x r old first gl g = Some (ks, g') -> spec_fresh pp x r [] first gl g = Some (ks, g').
Proof.
  induction gl as [|tv gl IH]; intros first g ks g' H; cbn [spec_fresh] in *; [exact H|].
  destruct first.
  - destruct (spec_fresh pp x r old false gl g) as [[k0 g0]|] eqn:E0; [|discriminate].
    rewrite (IH _ _ _ _ E0). exact H.
  - destruct (prng_eqb _ old); [discriminate|].
    rewrite prng_eqb_nil by (apply T2_len, (hash_len_env L)).
    destruct (spec_fresh pp x r old false gl _) as [[k0 g0]|] eqn:E0; [|discriminate].
    rewrite (IH _ _ _ _ E0). exact H.
Qed.
Lemma spec_fresh_total {E} (L : env_laws E) (pp : pubparam E) x r : forall gl first g,
  exists ks g', spec_fresh pp x r [] first gl g = Some (ks, g').
Proof.
  induction gl as [|tv gl IH]; intros first g; cbn [spec_fresh]; [eauto|].
  destruct first.
  - destruct (IH false g) as (ks & g' & ->). eauto.
  - rewrite prng_eqb_nil by (apply T2_len, (hash_len_env L)).
    destruct (IH false (spec_next (sha512 E) g DOM_SEP_SK_UPDATE)) as (ks & g' & ->). eauto.
Qed.

Lemma py_new_loop_skip {E} d (delg : subkey E) skv : forall gl,
  Forall (fun tv => py_vec_to_time (tv_vec tv) d = Some (tv_time tv)) gl ->
  Forall (fun tv => In (tv_time tv) (map sk_t skv)) gl ->
  py_new_loop d delg skv (map tv_vec gl) = Some [].
Proof.
  induction gl as [|tv gl IH]; intros H1 H2; [reflexivity|]. inversion H1; inversion H2; subst.
  cbn [map py_new_loop].
  match goal with H : py_vec_to_time _ _ = _ |- _ => rewrite H end.
  replace (existsb (fun ssk => sk_t ssk =? tv_time tv) skv) with true; [apply IH; auto|].
  symmetry. apply existsb_exists. match goal with H : In _ _ |- _ => apply in_map_iff in H as (s & <- & Hi) end.
  exists s. split; [exact Hi|]. apply N.eqb_refl.
Qed.
Lemma py_new_loop_spec {E} (L : env_laws E) (pp : pubparam E) x ta va r skv gpost : forall gpre,
  pp_ok pp -> node_at (pp_depth pp) ta va ->
  Forall (fun tv => py_vec_to_time (tv_vec tv) (pp_depth pp) = Some (tv_time tv)) (gpre ++ gpost) ->
  Forall (fun tv => node_at (pp_depth pp) (tv_time tv) (tv_vec tv) /\ exists w, w <> [] /\ tv_vec tv = va ++ w) gpre ->
  Forall (fun tv => ~ In (tv_time tv) (map sk_t skv)) gpre ->
  Forall (fun tv => In (tv_time tv) (map sk_t skv)) gpost ->
  py_new_loop (pp_depth pp) (honest_ssk pp x ta va r) skv (map tv_vec (gpre ++ gpost))
  = Some (map (fun tv => honest_ssk pp x (tv_time tv) (tv_vec tv) r) gpre).
Proof.
  induction gpre as [|tv gpre IH]; intros Hpp Hn H1 H2 H3 H4.
  - apply py_new_loop_skip; auto.
  - cbn [app map py_new_loop]. cbn [app] in H1.
    pose proof (Forall_inv H1) as Hv. rewrite Hv. apply Forall_inv_tail in H1.
    pose proof (Forall_inv H2) as (Hnt & w & _ & Hw). apply Forall_inv_tail in H2.
    pose proof (Forall_inv H3) as Hni. apply Forall_inv_tail in H3.
    replace (existsb (fun ssk => sk_t ssk =? tv_time tv) skv) with false.
    2:{ symmetry. apply not_true_iff_false. rewrite existsb_exists. intros (s & Hi & He).
        apply Hni. apply in_map_iff. exists s. split; [lia|exact Hi]. }
    rewrite Hw in Hnt. rewrite (py_delegate_honest L) with (w := w) by auto.
    rewrite IH by auto. rewrite <- Hw. reflexivity.
Qed.

Lemma py_ancestor_app {E} tar : forall l (s : subkey E) e post,
  sk_t e <= tar -> Forall (fun s => tar < sk_t s) post ->
  py_ancestor_loop tar s (l ++ e :: post) = e.
Proof.
  assert (Hp : forall post (e : subkey E), Forall (fun s => tar < sk_t s) post -> py_ancestor_loop tar e post = e).
  { induction post as [|p post IH]; intros e H; [reflexivity|]. inversion H; subst. cbn [py_ancestor_loop].
    replace (sk_t p <=? tar) with false by lia. auto. }
  induction l as [|a l IH]; intros s e post He H; cbn [app py_ancestor_loop]; [|apply IH; auto].
  replace (sk_t e <=? tar) with true by lia. apply Hp, H.
Qed.
Lemma filter_ge {E} ta : forall (pre l : list (subkey E)),
  Forall (fun s => sk_t s < ta) pre -> Forall (fun s => ta <= sk_t s) l ->
  filter (fun s => ta <=? sk_t s) (pre ++ l) = l.
Proof.
  intros pre l Hp Hl. rewrite filter_app.
  assert (filter (fun s : subkey E => ta <=? sk_t s) pre = []) as ->.
  { induction Hp as [|a pre Ha Hp IH]; [reflexivity|]. cbn [filter]. replace (ta <=? sk_t a) with false by lia. exact IH. }
  induction Hl as [|a l Ha Hl IH]; [reflexivity|]. cbn [filter app] in *. replace (ta <=? sk_t a) with true by lia.
  f_equal. exact IH.
Qed.

Lemma last_time_32 d : (d <= 32)%nat -> last_time d < 2^32.
Proof. intros H. unfold last_time. pose proof (pow2_le d 32 H). pose proof (pow2_pos d). change (pow2 32) with (2^32) in *. lia. Qed.

(** Python never fails on an admissible target, and Rust does the same or notices
    a repeated prng state. *)
Lemma py_update_good {E} (L : env_laws E) m (pp : pubparam E) x sk tar seed :
  pp_ok pp -> py_params pp -> good_sk pp x sk -> sec_time sk < tar <= last_time (pp_depth pp) ->
  exists sk', py_update pp (py_view sk) tar seed = Some (py_view sk')
    /\ (update m pp tar seed sk = (Ok tt, sk') \/ update m pp tar seed sk = (Panic P_PRNG, sk))
    /\ good_sk pp x sk' /\ sec_time sk' = tar.
Proof.
  intros Hpp [Hcs Hlen Hd] Hg Htar.
  destruct (update_good L m pp x sk tar seed Hpp Hg Htar) as (pre & ta & va & r & post & Hsp & Hup).
  pose proof Hsp as [Hl Hn Hc Hpre Htil Hpost].
  destruct (good_sk_head pp x sk Hg) as (v0 & r0 & l0 & Hn0 & Hh0).
  pose proof (last_time_32 _ Hd) as H32.
  assert (Hhead : forall k, py_update pp (py_view sk) tar seed = Some k <->
    (if ta =? tar then Some (spec_reseed sk seed, honest_ssk pp x ta va r :: post)
     else let? tvec := py_time_to_vec tar (pp_depth pp) in
          let? new_ssk := py_new_loop (pp_depth pp) (honest_ssk pp x ta va r) (honest_ssk pp x ta va r :: post) (py_gammat tvec) in
          let? (new_ssk, new_seed) :=
            match new_ssk with
            | [] => Some ([], spec_reseed sk seed)
            | s :: l => let? (l', g) := py_rand_loop pp l (spec_reseed sk seed) in Some (s :: l', g)
            end in
          Some (new_seed, new_ssk ++ post)) = Some k).
  { intros k. unfold py_update, py_view. cbn [fst snd]. rewrite Hh0 at 1. cbn [py_nth nth_error honest_ssk sk_t].
    rewrite py_i2osp4_spec by lia. rewrite py_rerandomize_spec by apply (hash_len_env L).
    rewrite <- (time_bytes_be4 (sec_time sk)).
    change (str "Pixel secret key rerandomize expand") with DOM_SEP_SK_RERANDOMIZE_INFO.
    fold (spec_reseed sk seed).
    assert (Hf : py_find_ancestor (sec_ssk sk) tar = Some (honest_ssk pp x ta va r)).
    { unfold py_find_ancestor. rewrite Hh0 at 1. cbn [py_nth nth_error]. f_equal. rewrite Hl.
      apply py_ancestor_app; [cbn; lia|exact Hpost]. }
    rewrite Hf. cbn [honest_ssk sk_t]. rewrite Hl, filter_ge.
    2: exact Hpre.
    2:{ constructor; [cbn; lia|]. eapply Forall_impl; [|exact Hpost]. cbn. intros; lia. }
    cbn [py_nth nth_error skipn]. cbn [honest_ssk sk_t]. reflexivity. }
  destruct Hup as [[He Hup]|(Hlt & tv & gpre & gpost & Htv & Hgl & (gpre' & Hgp) & Ht & Hmp & Hnodes & Hup)].
  - eexists. split; [|split; [left; exact Hup|]]. { apply Hhead. rewrite He, N.eqb_refl. reflexivity. }
    destruct (update_good_ok L m pp x sk tar seed Hpp Hg Htar) as [(sk' & Hu & H1 & H2)|Hu]; rewrite Hup in Hu;
      [injection Hu as <-; auto|discriminate].
  - destruct (spec_fresh_total L pp x r gpre true (spec_reseed sk seed)) as (ks & g' & Hf).
    exists (SecKey (sec_cs sk) tar (ks ++ post) g'). split; [|split; [|split; [|reflexivity]]].
    + apply Hhead. replace (ta =? tar) with false by lia.
      apply tv_init_node in Htv as [Htt Hnv]; [|lia]. destruct tv as [t0 v]; cbn [tv_time tv_vec] in *; subst t0.
      rewrite (py_time_to_vec_node _ _ _ Hnv).
      destruct (py_gammat_spec m (pp_depth pp) _ _ _ ltac:(lia) Hnv Hgl) as [-> Hvt].
      rewrite (py_new_loop_spec L); auto.
      * rewrite Hgp in *. cbn [map tv_time tv_vec]. rewrite (py_rand_fresh L); auto.
        2:{ apply Forall_inv_tail in Hnodes. eapply Forall_impl; [|exact Hnodes]. cbn. tauto. }
        cbn [spec_fresh tv_time tv_vec] in Hf.
        destruct (spec_fresh pp x r [] false gpre' _) as [[k0 g0]|]; [|discriminate].
        injection Hf as <- <-. reflexivity.
      * pose proof (tiling_sorted _ _ _ Ht) as Hs. pose proof (tiling_ge _ _ _ Ht) as Hge.
        apply Forall_app in Hge as [Hge _]. rewrite Forall_map in Hge.
        apply Forall_forall. intros tv Hi. rewrite Forall_forall in Hge. specialize (Hge tv Hi). cbn in Hge.
        cbn [map honest_ssk sk_t]. intros [Hx|Hx]; [lia|].
        apply in_split in Hx as (q1 & q2 & Hq). rewrite Hq in Hs.
        rewrite app_assoc in Hs. apply StronglySorted_app_lt in Hs. apply Forall_app in Hs as [Hs _].
        rewrite Forall_map, Forall_forall in Hs. specialize (Hs tv Hi). cbn in Hs. lia.
      * apply Forall_forall. intros tv Hi. cbn [map]. right. rewrite <- Hmp. apply in_map, Hi.
    + destruct (spec_fresh pp x r (sec_prng sk) true gpre (spec_reseed sk seed)) as [[k0 g0]|] eqn:E0.
      * left. rewrite Hup. rewrite (spec_fresh_old L _ _ _ _ _ _ _ _ _ E0) in Hf. injection Hf as <- <-. reflexivity.
      * right. exact Hup.
    + apply (spec_fresh_props L) in Hf as (Hm & Hh & Hg'); [| |apply (spec_reseed_ok L)].
      2:{ eapply Forall_impl; [|exact Hnodes]. cbn. tauto. }
      pose proof (gsk_time _ _ _ Hg). constructor; cbn [sec_cs sec_time sec_ssk sec_prng].
      * apply Hg.
      * lia.
      * rewrite map_app, Hm. exact Ht.
      * apply Forall_app. split; [exact Hh|].
        apply (split_honest _ _ _ _ _ _ _ _ _ (gsk_honest _ _ _ Hg) Hsp).
      * exact Hg'.
Qed.

Lemma py_update_agrees : forall (E : env) (L : env_laws E) m (pp : pubparam E) pk sk tar seed,
  pp_ok pp -> py_params pp -> reachable m pp pk sk -> sec_time sk < tar <= last_time (pp_depth pp) ->
  exists sk', py_update pp (py_view sk) tar seed = Some (py_view sk')
    /\ (update m pp tar seed sk = (Ok tt, sk') \/ update m pp tar seed sk = (Panic P_PRNG, sk)).
Proof.
  intros E L m pp pk sk tar seed Hpp Hp Hr Ht.
  destruct (reachable_good L m pp pk sk Hpp Hr) as (x & _ & _ & Hg & _).
  destruct (py_update_good L m pp x sk tar seed Hpp Hp Hg Ht) as (sk' & H1 & H2 & _). eauto.
Qed.

(** * sign_present *)
Lemma py_sign_good {E} (L : env_laws E) m (pp : pubparam E) x sk msg :
  pp_ok pp -> py_params pp -> good_sk pp x sk ->
  exists s, sign_present m (sec_time sk) pp msg sk = (Ok s, sk)
    /\ sig_cs s = 0 /\ sig_time s = sec_time sk
    /\ py_sign_present pp (py_view sk) (sec_time sk) msg = Some (sec_time sk, sig_1 s, sig_2 s).
Proof.
  intros Hpp [Hcs Hlen Hd] Hg. pose proof (ppo_depth pp Hpp) as Hd1. pose proof (last_time_32 _ Hd) as H32.
  pose proof (gsk_time _ _ _ Hg) as Ht.
  destruct (sign_bytes_good L m pp x sk msg Hpp ltac:(rewrite Hcs; reflexivity) Hg) as (v & r & Hn & (l & Hs) & Hsb).
  destruct (node_at_turn _ _ _ Hn) as [_ Hl].
  eexists. split; [|split; [|split]].
  - unfold sign_present, sbind, sget, slift. rewrite N.eqb_refl. cbn [negb]. rewrite Hsb. reflexivity.
  - exact Hcs.
  - reflexivity.
  - unfold py_sign_present, py_view. cbn [fst snd]. rewrite Hs.
    change (py_nth (honest_ssk pp x (sec_time sk) v r :: l) 0) with (Some (honest_ssk pp x (sec_time sk) v r)). cbv iota beta.
    pose proof (last_hv pp x (sec_time sk) v r Hpp Hl) as Hlast.
    unfold last_hvector_coeff in Hlast.
    destruct (sk_hvec (honest_ssk pp x (sec_time sk) v r)) as [|h hv] eqn:Eh; [discriminate|].
    cbn [honest_ssk sk_t sk_g2r sk_hpoly]. rewrite N.eqb_refl. cbn [negb].
    rewrite (py_time_to_vec_node _ _ _ Hn), py_i2osp4_spec by lia.
    rewrite py_sample_spec by apply (hash_len_env L).
    unfold py_nth at 1. rewrite (nth_error_nth' (pp_hlist pp) g1_zero) by lia.
    rewrite (py_poly_node L) by auto.
    unfold py_nth at 1. rewrite (nth_error_nth' (pp_hlist pp) g1_zero) by lia.
    unfold nth_res in Hlast. unfold py_nth.
    destruct (nth_error (h :: hv) _) as [hl|] eqn:En; [|discriminate]. injection Hlast as ->.
    rewrite <- (time_bytes_be4 (sec_time sk)).
    change (str "Pixel randomness for signing" ++ msg ++ time_bytes (sec_time sk)) with (sign_info msg (sec_time sk)).
    assert (Hm : py_hash_msg (sha512 E) msg = msg_scalar pp msg).
    { unfold py_hash_msg, msg_scalar, spec_msg. rewrite py_os2ip_spec, Hcs. reflexivity. }
    rewrite Hm. cbn [honest_sig sig_1 sig_2]. unfold sig_val. f_equal. f_equal; [f_equal; g2_solve L|g1_solve L].
Qed.
Lemma py_sign_agrees : forall (E : env) (L : env_laws E) m (pp : pubparam E) pk sk tar msg,
  pp_ok pp -> py_params pp -> reachable m pp pk sk ->
  match fst (sign_present m tar pp msg sk), py_sign_present pp (py_view sk) tar msg with
  | Ok s, Some (t, s1, s2) => sig_time s = t /\ sig_1 s = s1 /\ sig_2 s = s2
  | Err _, None => True
  | _, _ => False
  end.
Proof.
  intros E L m pp pk sk tar msg Hpp Hp Hr.
  destruct (reachable_good L m pp pk sk Hpp Hr) as (x & _ & _ & Hg & _).
  destruct (N.eq_dec (sec_time sk) tar) as [<-|Ht].
  - destruct (py_sign_good L m pp x sk msg Hpp Hp Hg) as (s & -> & _ & Hst & ->). cbn [fst]. auto.
  - unfold sign_present, sbind, sget, slift. replace (sec_time sk =? tar) with false by lia. cbn [negb fst].
    destruct (good_sk_head pp x sk Hg) as (v & r & l & _ & Hs).
    unfold py_sign_present, py_view. cbn [snd]. rewrite Hs. cbn [py_nth nth_error honest_ssk sk_t].
    replace (sec_time sk =? tar) with false by lia. exact I.
Qed.

(** * Bytes *)
Lemma py_ssk_blob {E} (s : subkey E) : wf_ssk s -> py_serialize_ssk s = Some (ssk_blob true s).
Proof.
  intros [Ht Hl _ _ _]. unfold py_serialize_ssk, ssk_blob, py_chr. rewrite py_i2osp4_spec by lia.
  replace (length (sk_hvec s) <? 256)%nat with true by lia. rewrite N.mod_small by lia. reflexivity.
Qed.
Lemma py_sk_blob {E} (sk : seckey E) : sec_cs sk = 0 -> wf_sk sk -> py_serialize_sk (py_view sk) = Some (sk_blob true sk).
Proof.
  intros Hcs [_ Hn _ _ Hs]. unfold py_serialize_sk, py_view, py_chr, sk_blob. cbn [fst snd].
  replace (length (sec_ssk sk) <? 256)%nat with true by lia. rewrite Hcs, N.mod_small by lia.
  assert (H : py_serialize_ssks (sec_ssk sk) = Some (concat (map (ssk_blob true) (sec_ssk sk)))).
  { induction Hs as [|a l Ha Hs' IH]; [reflexivity|]. cbn [py_serialize_ssks map concat].
    rewrite (py_ssk_blob a Ha). cbn [length] in Hn.
    destruct l as [|b l]; [reflexivity|]. rewrite IH; [reflexivity|cbn [length] in *; lia]. }
  rewrite H. reflexivity.
Qed.

Lemma py_updates_good {E} (L : env_laws E) m (pp : pubparam E) x : forall l sk,
  pp_ok pp -> py_params pp -> good_sk pp x sk -> increasing (sec_time sk) (last_time (pp_depth pp)) l ->
  exists sk', py_updates pp l (py_view sk) = Some (py_view sk') /\ good_sk pp x sk'
    /\ (rust_updates m pp l sk = Panic P_PRNG \/ rust_updates m pp l sk = Ok sk').
Proof.
  induction l as [|[t seed] l IH]; intros sk Hpp Hp Hg Hi.
  - exists sk. cbn. auto.
  - destruct Hi as [Ht Hi]. cbn [py_updates rust_updates].
    destruct (py_update_good L m pp x sk t seed Hpp Hp Hg Ht) as (sk1 & -> & Hu & Hg1 & <-).
    destruct (IH sk1 Hpp Hp Hg1 Hi) as (sk' & -> & Hg' & Hr). exists sk'.
    split; [reflexivity|]. split; [exact Hg'|]. destruct Hu as [-> | ->]; auto.
Qed.

Lemma py_vector_agrees : forall (E : env) (L : env_laws E) m (pp : pubparam E) seed l msg,
  pp_ok pp -> py_params pp ->
  (32 <= length seed)%nat -> increasing 1 (last_time (pp_depth pp)) l ->
  exists b, py_vector pp seed l msg = Some b
            /\ (rust_vector m pp seed l msg = Ok b
                \/ (rust_vector m pp seed l msg = Panic P_PRNG /\ breaks m pp [(seed, updates l)])).
Proof.
  intros E L m pp seed l msg Hpp Hp Hs Hi. pose proof Hp as [Hcs Hlen Hd].
  assert (Hv : valid_cs (pp_cs pp) = true) by (rewrite Hcs; reflexivity).
  destruct (key_gen seed pp) as [[[pk sk] pop]|e|p] eqn:Hk;
    [|rewrite (key_gen_spec L) in Hk by auto; discriminate|rewrite (key_gen_spec L) in Hk by auto; discriminate].
  pose proof (py_key_gen_agrees E L pp seed pk sk pop Hpp Hp Hk) as Hpk.
  destruct (key_gen_good L pp seed pk sk pop Hpp Hk) as (x & Hx & Hpke & Hg & Ht1 & _).
  rewrite <- Ht1 in Hi. destruct (py_updates_good L m pp x l sk Hpp Hp Hg Hi) as (sk' & Hpu & Hg' & Hru).
  destruct (py_sign_good L m pp x sk' msg Hpp Hp Hg') as (s & Hsp & Hscs & Hst & Hps).
  pose proof (good_wf L pp x sk' Hpp Hd Hv Hg') as Hw.
  destruct (good_sk_head pp x sk' Hg') as (v & r & l0 & Hn & Hss).
  assert (Hcs' : sec_cs sk' = 0) by (rewrite (gsk_cs _ _ _ Hg'); exact Hcs).
  assert (Ht : sec_time sk' < 2^32) by (pose proof (gsk_time _ _ _ Hg'); pose proof (last_time_32 _ Hd); lia).
  exists (pk_blob true pk, sk_blob true sk', sig_blob true s). split.
  - unfold py_vector. rewrite Hpk, Hpu. unfold py_view at 1. cbn [snd]. rewrite Hss. cbn [hd_error honest_ssk sk_t].
    rewrite Hps, (py_sk_blob sk' Hcs' Hw). unfold py_serialize_sig. rewrite py_i2osp4_spec by exact Ht.
    unfold py_serialize_pk, pk_blob, sig_blob. rewrite Hpke. cbn [pk_cs pk_pk]. rewrite Hcs, Hscs, Hst. reflexivity.
  - unfold rust_vector. rewrite Hk. cbn [bind]. destruct Hru as [Hru| ->].
    { right. rewrite Hru. split; [reflexivity|].
      apply (rust_updates_breaks L m pp seed pk Hpp Hd l [] sk (reached_keygen m pp seed pk sk pop Hk) P_PRNG Hru). }
    left. cbn [bind].
    rewrite Hsp. cbn [fst bind].
    assert (Hb : to_vec (pk_serialize pk true) = Ok (pk_blob true pk)).
    { apply aon_to_vec. pose proof (pk_aon pk true) as H. rewrite Hpke in H at 2. cbn [pk_cs] in H.
      rewrite Hv in H. exact H. }
    rewrite Hb. cbn [bind]. destruct (sk_roundtrip E L true sk' Hw) as (-> & _). cbn [bind].
    assert (Hc : to_vec (sig_serialize s true) = Ok (sig_blob true s)).
    { apply aon_to_vec. pose proof (sig_aon s true) as H. rewrite Hscs, Hst in H.
      replace (sec_time sk' <? 2^32) with true in H by lia. exact H. }
    rewrite Hc. reflexivity.
Qed.

(** time_to_vec on every argument. *)
Lemma py_time_to_vec_all : forall d t,
  py_time_to_vec 0 d = None
  /\ (forall v, node_at d t v -> py_time_to_vec t d = Some v)
  /\ (2^(N.of_nat d) <= t -> py_time_to_vec t d = Some (repeat 2 d ++ repeat 1 (N.to_nat (t - 2^(N.of_nat d))))).
Proof.
  intros d t. split; [destruct d; reflexivity|]. split; [apply py_time_to_vec_node|]. revert t.
  induction d as [|d IH]; intros t Ht.
  - change (2 ^ N.of_nat 0) with 1 in *. cbn [py_time_to_vec repeat app]. rewrite (proj2 (N.eqb_neq t 0)) by lia. destruct (N.eqb_spec t 1) as [->|Hne]; reflexivity.
  - assert (Hp : 2 ^ N.of_nat (S d) = 2 * 2 ^ N.of_nat d) by (rewrite Nat2N.inj_succ, N.pow_succ_r by lia; reflexivity).
    rewrite Hp in Ht |- *. assert (1 <= 2 ^ N.of_nat d) by (change 1 with (2 ^ 0); apply N.pow_le_mono_r; lia).
    cbn [py_time_to_vec]. rewrite (proj2 (N.eqb_neq t 0)), (proj2 (N.eqb_neq t 1)), (proj2 (N.ltb_lt (2 ^ N.of_nat d) t)) by lia.
    rewrite IH by lia. cbn [repeat app]. do 4 f_equal. lia.
Qed.
