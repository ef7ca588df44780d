(** Lemmas for C99: the code and the algorithms of spec.md. *)
From Coq Require Import String Sorted.
From Verif Require Import Base Env Time Hkdf Prng SubKey SecretKey Keys Sig IO Serdes Api Python Doc
  SpecTime TimeFacts NMod GroupFacts SpecPrng PrngFacts SpecKey SubKeyFacts SpecUpdate UpdateFacts KeyFacts
  SpecSer IOFacts SerFacts HistoryFacts KeyProps SerProps SpecFfi SpecPy SpecColl CollProps SpecSig VerProps ValProps PyProps.
From Coq Require Import ZifyBool ZifyNat ZifyN.
Local Open Scope N_scope.

(** * Tree *)
Lemma doc_path_node d t v : node_at d t v -> doc_path d t = Ok v.
Proof. intros [H1 H2]. unfold doc_path. replace (t =? 0) with false by lia. rewrite H2. reflexivity. Qed.
Lemma doc_path_cases d t : (exists v, node_at d t v /\ doc_path d t = Ok v) \/ ((forall v, ~ node_at d t v) /\ doc_path d t = Err E_TIME_STAMP).
Proof.
  unfold doc_path. destruct (N.eqb_spec t 0) as [->|Ht].
  - right. split; [intros v [H _]; lia|reflexivity].
  - destruct (nth_error (preorder d) (N.to_nat (t - 1))) as [v|] eqn:Hn.
    + left. exists v. split; [split; [lia|exact Hn]|reflexivity].
    + right. split; [intros v [_ H]; congruence|reflexivity].
Qed.
Lemma doc_find_nth v : forall l i, nth_error l i = Some v -> nth_error l (N.to_nat (doc_find v l)) = Some v.
Proof.
  induction l as [|w l IH]; intros i Hi; [destruct i; discriminate Hi|]. cbn [doc_find]. destruct (bytes_eqb w v) eqn:Hw.
  - apply bytes_eqb_eq in Hw. subst w. reflexivity.
  - destruct i as [|i]; [injection Hi as ->; rewrite (proj2 (bytes_eqb_eq v v) eq_refl) in Hw; discriminate Hw|].
    replace (N.to_nat (1 + doc_find v l)) with (S (N.to_nat (doc_find v l))) by lia. exact (IH i Hi).
Qed.
Lemma doc_time_node d t v : node_at d t v -> doc_time d v = t.
Proof.
  intros Hn. apply (node_at_inj d _ _ v); [|exact Hn]. destruct Hn as [_ Hn]. unfold doc_time. split; [lia|].
  replace (1 + doc_find v (preorder d) - 1) with (doc_find v (preorder d)) by lia. exact (doc_find_nth v _ _ Hn).
Qed.
Lemma doc_sibs : forall rest pre acc,
  map (fun i => pre ++ firstn i rest ++ [2]) (filter (fun i => nth i rest 0 =? 1) (rev (seq 0 (length rest)))) ++ acc = sibs pre rest acc.
Proof.
  induction rest as [|x rest IH]; intros pre acc; [reflexivity|]. cbn [length sibs]. rewrite <- IH. clear IH.
  change (seq 0 (S (length rest))) with (0%nat :: seq 1 (length rest)). rewrite <- seq_shift. cbn [rev]. rewrite filter_app, map_app.
  rewrite <- map_rev.
  assert (H : forall l, map (fun i => pre ++ firstn i (x :: rest) ++ [2]) (filter (fun i => nth i (x :: rest) 0 =? 1) (map S l))
             = map (fun i => (pre ++ [x]) ++ firstn i rest ++ [2]) (filter (fun i => nth i rest 0 =? 1) l)).
  { induction l as [|i l IHl]; [reflexivity|]. cbn [map filter]. change (nth (S i) (x :: rest) 0) with (nth i rest 0).
    destruct (nth i rest 0 =? 1); cbn [map]; rewrite IHl; [|reflexivity].
    cbn [firstn]. rewrite <- app_assoc. reflexivity. }
  rewrite H, <- app_assoc. f_equal. cbn [filter nth]. destruct (x =? 1); reflexivity.
Qed.
Lemma doc_gamma_spec m d t v gl : (d < 64)%nat -> node_at d t v -> gamma_list m (TimeVec t v) d = Ok gl ->
  doc_gamma v = map tv_vec gl /\ Forall (fun tv => node_at d (tv_time tv) (tv_vec tv)) gl.
Proof.
  intros Hd Hn Hg. destruct (py_gammat_spec m d t v gl Hd Hn Hg) as [H1 _]. split.
  - rewrite <- H1. unfold doc_gamma, py_gammat. f_equal. rewrite py_gammat_sibs, <- doc_sibs, app_nil_r. reflexivity.
  - destruct (gamma_list_spec m d t v Hd Hn) as (l & Hl & Hv & _). rewrite Hl in Hg. injection Hg as <-.
    apply Forall_map. eapply Forall_impl; [|exact Hv]. intros p Hp. unfold mk_tv. cbn [tv_time tv_vec]. apply node_at_ptime. auto.
Qed.
Lemma doc_prefix_app v w : doc_prefix v (v ++ w) = true.
Proof. unfold doc_prefix. rewrite firstn_app, firstn_all, Nat.sub_diag, app_nil_r. apply bytes_eqb_eq. reflexivity. Qed.
Lemma doc_prefix_true v w : doc_prefix v w = true -> exists u, w = v ++ u.
Proof. unfold doc_prefix. intros H. apply bytes_eqb_eq in H. exists (skipn (length v) w). rewrite <- H at 1. symmetry. apply firstn_skipn. Qed.

(** * Sub keys *)
Lemma doc_prod_lin {E} (L : env_laws E) : forall es (hs : list (G1 E)) acc, doc_prod acc es hs = g1_add acc (lincomb es hs).
Proof.
  unfold doc_prod. induction es as [|e es IH]; intros hs acc; cbn [combine fold_left lincomb]; [g1_solve L|].
  destruct hs as [|h hs]; cbn [fold_left]; [g1_solve L|]. rewrite IH. cbn [fst snd]. g1_solve L.
Qed.
Lemma doc_base_node {E} (L : env_laws E) (pp : pubparam E) v : doc_base pp v = node_val pp v.
Proof. unfold doc_base. rewrite (doc_prod_lin L). reflexivity. Qed.
Lemma doc_delegate_honest {E} (L : env_laws E) (pp : pubparam E) x t v t' w r :
  pp_ok pp -> node_at (pp_depth pp) t v -> node_at (pp_depth pp) t' (v ++ w) ->
  doc_delegate (pp_depth pp) (honest_ssk pp x t v r) t' = Ok (honest_ssk pp x t' (v ++ w) r).
Proof.
  intros Hpp Hn Hn'. pose proof (py_delegate_honest L pp x t v t' w r Hpp Hn Hn') as Hp.
  unfold py_delegate in Hp. unfold doc_delegate. cbn [honest_ssk sk_t sk_g2r sk_hpoly sk_hvec] in *.
  rewrite (py_time_to_vec_node _ _ _ Hn), (py_time_to_vec_node _ _ _ Hn') in Hp.
  rewrite (doc_path_node _ _ _ Hn), (doc_path_node _ _ _ Hn'). cbn [bind]. rewrite doc_prefix_app. cbn [negb].
  destruct (node_at_turn _ _ _ Hn) as [_ Hl]. destruct (node_at_turn _ _ _ Hn') as [_ Hl']. rewrite app_length in Hl'.
  fold (hv_seg pp (length v)) in *.
  assert (Hlen : (length (skipn (length v) (v ++ w)) <= length (map (g1_mul r) (hv_seg pp (length v))))%nat).
  { rewrite map_length, hv_seg_len, skipn_length, app_length by auto. lia. }
  rewrite (py_del_lin L) in Hp by exact Hlen. rewrite (doc_prod_lin L).
  rewrite skipn_length in Hlen. rewrite (proj2 (Nat.ltb_ge _ _) Hlen).
  injection Hp as H1 H2. unfold honest_ssk. rewrite H1, H2. reflexivity.
Qed.
Lemma doc_randomization_honest {E} (L : env_laws E) (pp : pubparam E) x t v r r' :
  pp_ok pp -> node_at (pp_depth pp) t v ->
  doc_randomization pp r' (honest_ssk pp x t v r) = Ok (honest_ssk pp x t v (r + r')).
Proof.
  intros Hpp Hn. pose proof (ppo_depth pp Hpp) as Hd. pose proof (ppo_len pp Hpp) as Hlen.
  destruct (node_at_turn _ _ _ Hn) as [Ht Hl].
  unfold doc_randomization. cbn [honest_ssk sk_t sk_g2r sk_hpoly sk_hvec].
  rewrite (doc_path_node _ _ _ Hn). cbn [bind]. fold (hv_seg pp (length v)).
  replace (length (pp_hlist pp) <? length v + 1 + length (map (g1_mul r) (hv_seg pp (length v))))%nat with false.
  2:{ symmetry. apply Nat.ltb_ge. rewrite map_length, hv_seg_len by auto. lia. }
  rewrite (doc_base_node L). f_equal. unfold honest_ssk. f_equal.
  - g2_solve L.
  - g1_solve L.
  - fold (hv_seg pp (length v)). rewrite combine_map_same.
    + rewrite map_map. apply map_ext. intros a. cbn [fst snd]. g1_solve L.
    + rewrite hv_seg_len, skipn_length by auto. lia.
    + rewrite hv_seg_len by auto. reflexivity.
Qed.

(** * Key generation *)
Lemma doc_key_gen_agrees : forall (E : env) (L : env_laws E) (pp : pubparam E) seed,
  pp_ok pp -> key_gen seed pp = doc_key_gen code_texts seed pp.
Proof.
  intros E L pp seed Hpp. unfold doc_key_gen. destruct (Nat.ltb_spec (length seed) 32) as [Hs|Hs]; [apply key_gen_short; exact Hs|].
  destruct (valid_cs (pp_cs pp)) eqn:Hcs; cbn [negb]; [|apply key_gen_bad_cs; assumption].
  rewrite (key_gen_spec L) by assumption.
  change (str "Pixel master key") with DOM_SEP_MASTER_KEY. fold (spec_master pp seed).
  change (tx_master code_texts) with KEY_INIT_INFO. fold (spec_x pp seed) (spec_g1 pp seed).
  change (tx_init code_texts 1) with SK_INIT_INFO. fold (spec_r pp seed) (spec_g2 pp seed).
  assert (Hk : honest_ssk pp (spec_x pp seed) 1 [] (spec_r pp seed) = doc_ssk_init pp (g1_mul (spec_x pp seed) (pp_h pp)) (spec_r pp seed)).
  { generalize (spec_x pp seed), (spec_r pp seed). intros x r. unfold honest_ssk, doc_ssk_init. f_equal.
    - unfold node_val. cbn [lincomb]. g1_solve L.
    - pose proof (ppo_len pp Hpp) as Hl. cbn [length]. rewrite Nat.sub_0_r. generalize (pp_depth pp) Hl. clear. intros d Hl.
      replace (map (fun i => g1_mul r (nth i (pp_hlist pp) g1_zero)) (seq 1 d))
        with (map (g1_mul r) (map (fun i => nth i (pp_hlist pp) g1_zero) (seq 1 d))) by (rewrite map_map; reflexivity).
      f_equal. destruct (pp_hlist pp) as [|h l]; [cbn in Hl; lia|]. cbn [skipn]. cbn [length] in Hl. revert l Hl.
      cut (forall l : list (G1 E), (d <= length l)%nat -> firstn d l = map (fun i => nth i l g1_zero) (seq 0 d)).
      { intros H l Hl. cbn [Nat.add skipn]. rewrite H by lia. rewrite <- seq_shift, map_map. reflexivity. }
      induction d as [|d IH]; intros l Hl; [reflexivity|]. destruct l as [|a l]; [cbn in Hl; lia|]. cbn [length] in Hl.
      cbn [firstn seq map nth]. f_equal. rewrite IH by lia. rewrite <- seq_shift, map_map. reflexivity. }
  rewrite Hk. reflexivity.
Qed.

(** * Update *)
Lemma doc_insert_at {A} (k : A) done a post : doc_insert (length done + 1) a (k :: done ++ post) = k :: (done ++ [a]) ++ post.
Proof.
  unfold doc_insert. rewrite Nat.add_1_r. cbn [firstn skipn]. rewrite firstn_app, firstn_all, Nat.sub_diag, skipn_app, skipn_all, Nat.sub_diag.
  cbn [firstn skipn app]. rewrite app_nil_r, <- app_assoc. reflexivity.
Qed.
Lemma doc_loop_skip {E} tx (pp : pubparam E) time del dv : forall gl i ssk g,
  Forall (fun v => doc_prefix dv v = false) gl -> doc_loop tx pp time del dv i gl ssk g = Ok (ssk, g).
Proof. induction gl as [|v gl IH]; intros i ssk g H; [reflexivity|]. inversion H as [|? ? Hv Hgl]; subst. cbn [doc_loop]. rewrite Hv. apply IH, Hgl. Qed.
Lemma doc_loop_spec {E} (L : env_laws E) (pp : pubparam E) x ta va r time post gpost : pp_ok pp -> node_at (pp_depth pp) ta va ->
  Forall (fun tv => doc_prefix va (tv_vec tv) = false) gpost ->
  forall gpre done g,
  Forall (fun tv => node_at (pp_depth pp) (tv_time tv) (tv_vec tv) /\ exists w, w <> [] /\ tv_vec tv = va ++ w) gpre ->
  doc_loop code_texts pp time (honest_ssk pp x ta va r) va (length done) (map tv_vec (gpre ++ gpost)) (honest_ssk pp x ta va r :: done ++ post) g
  = match spec_fresh pp x r [] (length done =? 0)%nat gpre g with
    | Some (ks, g') => Ok (honest_ssk pp x ta va r :: (done ++ ks) ++ post, g')
    | None => Panic P_PRNG
    end.
Proof.
  intros Hpp Hn Hpost. induction gpre as [|tv gpre IH]; intros done g Hpre.
  - cbn [app spec_fresh]. rewrite app_nil_r. apply doc_loop_skip. apply Forall_map. exact Hpost.
  - inversion Hpre as [|? ? (Hnt & w & _ & Hw) Hpre']; subst. cbn [app map doc_loop spec_fresh].
    rewrite Hw, doc_prefix_app, (doc_time_node _ (tv_time tv)) by (rewrite <- Hw; exact Hnt). rewrite Hw in Hnt.
    rewrite (doc_delegate_honest L _ _ _ _ _ w) by assumption. cbn [bind].
    specialize (IH (done ++ [honest_ssk pp x (tv_time tv) (va ++ w) (if (length done =? 0)%nat then r else r + spec_scalar (sha512 E) g (str "Pixel secret key update"))])).
    rewrite app_length in IH. cbn [length] in IH. replace (S (length done)) with (length done + 1)%nat by lia.
    replace (length done + 1 =? 0)%nat with false in IH by lia.
    destruct (length done =? 0)%nat.
    + rewrite doc_insert_at, IH by exact Hpre'. destruct (spec_fresh pp x r [] false gpre g) as [[ks g']|]; [|reflexivity]. rewrite <- !app_assoc. reflexivity.
    + rewrite (doc_randomization_honest L) by assumption. cbn [bind]. change (tx_update code_texts time) with (str "Pixel secret key update").
      rewrite doc_insert_at, IH by exact Hpre'. rewrite prng_eqb_nil by (apply T2_len, (hash_len_env L)).
      change (str "Pixel secret key update") with DOM_SEP_SK_UPDATE.
      destruct (spec_fresh pp x r [] false gpre _) as [[ks g']|]; [|reflexivity]. rewrite <- !app_assoc. reflexivity.
Qed.
Lemma fold_max_last : forall (l : list N) t0 t, t0 <= t -> Forall (fun s => s <= t) l -> fold_left N.max (l ++ [t]) t0 = t.
Proof.
  induction l as [|a l IH]; intros t0 t H Hl; cbn [app fold_left]; [lia|]. inversion Hl; subst. apply IH; [lia|assumption].
Qed.
Lemma doc_find_ancestor_app {E} tar ta (pre post : list (subkey E)) del : sk_t del = ta -> ta <= tar ->
  Forall (fun s => sk_t s < ta) pre -> Forall (fun s => tar < sk_t s) post -> doc_find_ancestor (pre ++ del :: post) tar = Some ta.
Proof.
  intros Hd Ht Hpre Hpost. unfold doc_find_ancestor. rewrite map_app, filter_app. cbn [map filter]. rewrite Hd. replace (ta <=? tar) with true by lia.
  assert (H1 : filter (fun t => t <=? tar) (map sk_t post) = []).
  { clear -Hpost. induction Hpost as [|s post Hs _ IH]; [reflexivity|]. cbn [map filter]. replace (sk_t s <=? tar) with false by lia. exact IH. }
  assert (H2 : filter (fun t => t <=? tar) (map sk_t pre) = map sk_t pre).
  { clear -Hpre Ht. induction Hpre as [|s pre Hs _ IH]; [reflexivity|]. cbn [map filter]. replace (sk_t s <=? tar) with true by lia. rewrite IH. reflexivity. }
  rewrite H1, H2. destruct pre as [|s pre]; [reflexivity|]. cbn [map app]. f_equal. inversion Hpre; subst. apply fold_max_last; [lia|].
  apply Forall_map. eapply Forall_impl; [|eassumption]. cbn. intros; lia.
Qed.
Lemma doc_update_good {E} (L : env_laws E) m (pp : pubparam E) x sk tar seed :
  pp_ok pp -> good_sk pp x sk ->
  match doc_update code_texts pp tar seed sk with
  | Ok sk' => update m pp tar seed sk = (Ok tt, sk') \/ update m pp tar seed sk = (Panic P_PRNG, sk)
  | Err e => update m pp tar seed sk = (Err e, sk)
  | Panic _ => False
  end.
Proof.
  intros Hpp Hg. unfold doc_update. rewrite (gsk_cs pp x sk Hg), N.eqb_refl. cbn [negb].
  destruct ((tar <=? sec_time sk) || (last_time (pp_depth pp) <? tar)) eqn:Hr.
  { pose proof (update_cases L m pp x sk tar seed Hpp Hg) as Hu. unfold in_range in Hu.
    replace ((sec_time sk <? tar) && (tar <=? last_time (pp_depth pp))) with false in Hu by lia. exact Hu. }
  assert (Htar : sec_time sk < tar <= last_time (pp_depth pp)) by lia. clear Hr.
  destruct (update_good L m pp x sk tar seed Hpp Hg Htar) as (pre & ta & va & r & post & Hsp & Hup).
  pose proof Hsp as [Hl Hn Hc Hpre Htil Hpost].
  change (tx_rerand code_texts (sec_time sk)) with (DOM_SEP_SK_RERANDOMIZE_INFO ++ be4 (sec_time sk)).
  rewrite <- (time_bytes_be4 (sec_time sk)). fold (spec_reseed sk seed).
  rewrite Hl, (doc_find_ancestor_app tar ta) by (first [reflexivity|assumption|lia]).
  replace (filter (fun s : subkey E => negb (sk_t s <? ta)) (pre ++ honest_ssk pp x ta va r :: post)) with (honest_ssk pp x ta va r :: post).
  2:{ symmetry. rewrite <- (filter_ge ta pre (honest_ssk pp x ta va r :: post) Hpre) at 2.
      - apply filter_ext. intros s. lia.
      - constructor; [cbn; lia|]. eapply Forall_impl; [|exact Hpost]. cbn. intros; lia. }
  destruct Hup as [[He Hup]|(Hlt & tv & gpre & gpost & Htv & Hgl & (gpre' & Hgp) & Ht & Hmp & Hnodes & Hup)].
  - rewrite He, N.eqb_refl. left. rewrite Hup, He, (gsk_cs pp x sk Hg). reflexivity.
  - replace (ta =? tar) with false by lia.
    pose proof (ppo_depth pp Hpp) as Hd.
    apply tv_init_node in Htv as [Htt Hnv]; [|lia]. destruct tv as [t0 v]; cbn [tv_time tv_vec] in *; subst t0.
    rewrite (doc_path_node _ _ _ Hnv), (doc_path_node _ _ _ Hn). cbn [bind].
    destruct (doc_gamma_spec m (pp_depth pp) _ _ _ ltac:(lia) Hnv Hgl) as [-> Hgn].
    assert (Hgpost : Forall (fun tv => doc_prefix va (tv_vec tv) = false) gpost).
    { apply Forall_app in Hgn as [_ Hgn]. apply tiling_ge in Htil. rewrite <- Hmp, Forall_map in Htil.
      rewrite Forall_forall in *. intros tv Hi. destruct (doc_prefix va (tv_vec tv)) eqn:Hp; [|reflexivity]. exfalso.
      apply doc_prefix_true in Hp as (u & Hu). specialize (Hgn tv Hi). cbv beta in Hgn. specialize (Htil tv Hi). cbv beta in Htil.
      assert (Hb : below (pp_depth pp) ta (tv_time tv)) by (exists va, u; rewrite <- Hu; auto).
      apply (below_interval _ _ _ _ Hn) in Hb. lia. }
    pose proof (doc_loop_spec L pp x ta va r (sec_time sk) post gpost Hpp Hn Hgpost gpre [] (spec_reseed sk seed) Hnodes) as Hlp.
    cbn [app length Nat.eqb] in Hlp. rewrite Hlp. clear Hlp.
    destruct (spec_fresh_total L pp x r gpre true (spec_reseed sk seed)) as (ks & g' & Hf). rewrite Hf. cbn [bind skipn].
    assert (Hks : exists ks', ks = honest_ssk pp x tar v r :: ks').
    { subst gpre. cbn [spec_fresh tv_time tv_vec] in Hf. destruct (spec_fresh pp x r [] false gpre' _) as [[k0 g0]|]; [|discriminate]. injection Hf as <- _. eauto. }
    destruct Hks as (ks' & Hks). rewrite Hks. cbn [app honest_ssk sk_t]. fold (honest_ssk pp x tar v r). 
    destruct (spec_fresh pp x r (sec_prng sk) true gpre (spec_reseed sk seed)) as [[k0 g0]|] eqn:E0.
    + left. rewrite Hup. rewrite (spec_fresh_old L _ _ _ _ _ _ _ _ _ E0) in Hf. injection Hf as -> ->. rewrite (gsk_cs pp x sk Hg), Hks. reflexivity.
    + right. exact Hup.
Qed.
Lemma doc_update_agrees : forall (E : env) (L : env_laws E) m (pp : pubparam E) kseed pk sk0 pop l tar seed,
  pp_ok pp -> (pp_depth pp <= 32)%nat -> key_gen kseed pp = Ok (pk, sk0, pop) ->
  let sk := snd (run m pp l sk0) in
  match doc_update code_texts pp tar seed sk with
  | Ok sk' => update m pp tar seed sk = (Ok tt, sk') \/ (update m pp tar seed sk = (Panic P_PRNG, sk) /\ breaks_at m pp kseed l seed)
  | Err e => update m pp tar seed sk = (Err e, sk)
  | Panic _ => False
  end.
Proof.
  intros E L m pp kseed pk sk0 pop l tar seed Hpp Hd Hk sk.
  assert (Hr : reached m pp kseed l pk sk) by (exists sk0, pop; auto).
  destruct (reachable_good L m pp pk sk Hpp (reached_reachable _ _ _ _ _ _ Hr)) as (x & _ & _ & Hg & _).
  pose proof (doc_update_good L m pp x sk tar seed Hpp Hg) as H.
  destruct (doc_update code_texts pp tar seed sk) as [sk'|e|p]; [|exact H|exact H].
  destruct H as [H|H]; [left; exact H|right]. split; [exact H|].
  exact (reached_update_panic L m pp kseed l pk sk tar seed _ _ Hpp Hd Hr H).
Qed.

(** * Signing *)
Lemma hvec_last {E} (s : subkey E) : last_hvector_coeff s = match rev (sk_hvec s) with [] => Err E_SSK_EMPTY | a :: _ => Ok a end.
Proof.
  unfold last_hvector_coeff. destruct (sk_hvec s) as [|b l] using rev_ind; [reflexivity|]. rewrite rev_app_distr. cbn [rev app].
  rewrite app_length. cbn [length]. rewrite Nat.add_sub. unfold nth_res. rewrite nth_error_app2, Nat.sub_diag by apply le_n. cbn [nth_error].
  destruct l; reflexivity.
Qed.
Lemma doc_sign_good {E} (L : env_laws E) m (pp : pubparam E) x sk msg : pp_ok pp -> good_sk pp x sk ->
  sign_bytes m sk (sec_time sk) pp msg = doc_sign code_texts pp sk (sec_time sk) msg.
Proof.
  intros Hpp Hg. unfold doc_sign. rewrite N.ltb_irrefl, (gsk_cs pp x sk Hg), N.eqb_refl, Bool.andb_true_r.
  destruct (valid_cs (pp_cs pp)) eqn:Hcs; cbn [negb].
  2:{ unfold sign_bytes. rewrite Hcs. reflexivity. }
  destruct (sign_bytes_good L m pp x sk msg Hpp Hcs Hg) as (v & r & Hn & (ssks & Hs) & ->).
  rewrite Hs, (doc_path_node _ _ _ Hn). cbn [bind].
  change (tx_sign code_texts msg (sec_time sk)) with (DOM_SEP_SIG ++ msg ++ be4 (sec_time sk)). rewrite <- (time_bytes_be4 (sec_time sk)).
  fold (sign_info msg (sec_time sk)).
  change (doc_hash_msg (E := E) msg (pp_cs pp)) with (msg_scalar pp msg).
  rewrite (doc_base_node L). fold (sig_val pp v (msg_scalar pp msg)).
  destruct (node_at_turn _ _ _ Hn) as [_ Hl].
  pose proof (last_hv pp x (sec_time sk) v r Hpp Hl) as Hv.
  rewrite hvec_last in Hv. destruct (rev (sk_hvec (honest_ssk pp x (sec_time sk) v r))) as [|hl ?]; [discriminate Hv|]. injection Hv as ->.
  unfold honest_sig. cbn [honest_ssk sk_g2r sk_hpoly]. generalize (spec_scalar (sha512 E) (sec_prng sk) (sign_info msg (sec_time sk))) (msg_scalar pp msg).
  intros s M. f_equal. f_equal; [g2_solve L|]. unfold sig_val. g1_solve L.
Qed.
Lemma doc_sign_agrees : forall (E : env) (L : env_laws E) m m' (pp : pubparam E) pk sk tar msg seed,
  pp_ok pp -> reachable m pp pk sk -> tar <= sec_time sk ->
  sign m' tar pp msg seed sk = (doc_sign code_texts pp sk tar msg, sk)
  /\ sign_present m' tar pp msg sk = (doc_sign code_texts pp sk tar msg, sk).
Proof.
  intros E L m m' pp pk sk tar msg seed Hpp Hr Ht.
  destruct (reachable_good L m pp pk sk Hpp Hr) as (x & _ & _ & Hg & _).
  unfold sign, sign_present, sbind, sget, slift, sret. destruct (N.ltb_spec tar (sec_time sk)) as [Hlt|Hge].
  - replace (sec_time sk =? tar) with false by lia. cbn [negb]. unfold doc_sign. replace (tar <? sec_time sk) with true by lia. auto.
  - assert (tar = sec_time sk) by lia. subst tar. rewrite N.ltb_irrefl, N.eqb_refl. cbn [negb].
    rewrite (doc_sign_good L m' pp x sk msg Hpp Hg). auto.
Qed.

(** * Verification *)
Lemma doc_product {E} (L : env_laws E) (g pk s1 : G2 E) (s2 F h : G1 E) :
  g2_insub g = true -> g2_insub pk = true -> g2_insub s1 = true ->
  g1_insub s2 = true -> g1_insub F = true -> g1_insub h = true ->
  gt_eqb (gt_mul (gt_mul (pairing (g2_neg g) s2) (pairing s1 F)) (pairing pk h)) gt_one = pairing_check [(g2_neg g, s2); (s1, F); (pk, h)].
Proof.
  intros. rewrite pairing_check_spec, (lp_prod E L).
  - unfold gt_prod. cbn [fold_right fst snd]. rewrite (gt_one_r L), (lt_assoc E L). reflexivity.
  - repeat constructor; cbn [fst snd]; auto using (l2_sub_neg E L).
Qed.
Lemma bool_eq_true (a b : bool) : (a = true <-> b = true) -> a = b.
Proof. intros [H1 H2]. destruct a; [symmetry; auto|]. destruct b; [auto|reflexivity]. Qed.
Lemma doc_verify_agrees : forall (E : env) (L : env_laws E) m (pp : pubparam E) s pk msg,
  pp_ok pp -> g2_insub (pk_pk pk) = true -> verify m s pk pp msg = Ok (doc_verify s pk pp msg).
Proof.
  intros E L m pp s pk msg Hpp Hpk. destruct (verify_no_panic L m pp s pk msg Hpp) as [b Hb]. rewrite Hb. f_equal.
  apply bool_eq_true. pose proof (verify_spec L m pp s pk msg Hpp Hpk) as Hv. rewrite Hb in Hv.
  assert (H : b = true <-> @Ok bool b = Ok true) by (split; [intros ->; reflexivity|intros H; injection H as H; exact H]).
  rewrite H, Hv. clear H Hv Hb b. unfold doc_verify. rewrite !Bool.andb_true_iff, N.eqb_eq.
  change (doc_hash_msg (E := E) msg (pp_cs pp)) with (msg_scalar pp msg).
  destruct (doc_path_cases (pp_depth pp) (sig_time s)) as [(v & Hn & ->)|[Hn ->]].
  - rewrite (doc_base_node L). fold (sig_val pp v (msg_scalar pp msg)). split.
    + intros (H1 & H2 & H3 & H4 & v' & Hn' & He). assert (v' = v) by (eapply node_at_fun; eassumption). subst v'. split; [auto|].
      rewrite (doc_product L); auto using (ppo_g2 pp Hpp), (ppo_h pp Hpp), (sig_val_insub L pp v (msg_scalar pp msg) Hpp).
      apply (pairing_check3 L); auto using pairing_check_spec, (ppo_g2 pp Hpp), (ppo_h pp Hpp), (sig_val_insub L pp v (msg_scalar pp msg) Hpp).
    + intros ((((H1 & H2) & H3) & H4) & He). split; [exact H1|]. split; [exact H2|]. split; [exact H3|]. split; [exact H4|].
      exists v. split; [exact Hn|].
      rewrite (doc_product L) in He; auto using (ppo_g2 pp Hpp), (ppo_h pp Hpp), (sig_val_insub L pp v (msg_scalar pp msg) Hpp).
      apply (pairing_check3 L) in He; auto using pairing_check_spec, (ppo_g2 pp Hpp), (ppo_h pp Hpp), (sig_val_insub L pp v (msg_scalar pp msg) Hpp).
  - split; [intros (_ & _ & _ & _ & v & Hv & _); exfalso; exact (Hn v Hv)|]. intros [_ H]. discriminate H.
Qed.
Lemma doc_aggregate_agrees : forall (E : env) (s : signature E) l,
  match doc_aggregate s l with
  | Ok a => aggregate (s :: l) = Ok a
  | Err e => aggregate (s :: l) = Err E_CIPHERSUITE \/ aggregate (s :: l) = Err E_TIME_STAMP
  | Panic _ => False
  end.
Proof.
  intros E s l. unfold doc_aggregate, aggregate.
  destruct (forallb (fun e => sig_cs s =? sig_cs e) l) eqn:Hc; cbn [negb].
  - destruct (forallb (fun e => sig_time s =? sig_time e) l) eqn:Ht; cbn [negb].
    + rewrite (proj2 (agg_check_ok s l)).
      2:{ apply Forall_forall. intros e He. rewrite forallb_forall in Hc, Ht. specialize (Hc e He). specialize (Ht e He). lia. }
      cbn [bind]. f_equal. clear Hc Ht. revert s. induction l as [|e l IH]; intros s; [destruct s; reflexivity|].
      cbn [fold_left map]. rewrite IH. cbn [sig_cs sig_time sig_1 sig_2]. reflexivity.
    + destruct (agg_check_cases s l) as [H|[[-> _]|[-> _]]]; cbn [bind]; auto. exfalso. apply agg_check_ok in H.
      apply Bool.not_true_iff_false in Ht. apply Ht. apply forallb_forall. intros e He. rewrite Forall_forall in H. specialize (H e He). cbv beta in H. lia.
  - destruct (agg_check_cases s l) as [H|[[-> _]|[-> _]]]; cbn [bind]; auto. exfalso. apply agg_check_ok in H.
      apply Bool.not_true_iff_false in Hc. apply Hc. apply forallb_forall. intros e He. rewrite Forall_forall in H. specialize (H e He). cbv beta in H. lia.
Qed.
Lemma doc_aggregate_same : forall (E : env) (s : signature E) l,
  Forall (fun e => sig_cs e = sig_cs s) l \/ Forall (fun e => sig_time e = sig_time s) l ->
  aggregate (s :: l) = doc_aggregate s l.
Proof.
  intros E s l H. pose proof (doc_aggregate_agrees E s l) as Ha. destruct (doc_aggregate s l) as [a|e|p] eqn:Hd; [exact Ha| |destruct Ha].
  unfold doc_aggregate in Hd. unfold aggregate in Ha |- *.
  destruct H as [H|H].
  - assert (Hc : forallb (fun e => sig_cs s =? sig_cs e) l = true).
    { apply forallb_forall. intros x Hx. rewrite Forall_forall in H. rewrite (H x Hx). apply N.eqb_refl. }
    rewrite Hc in Hd. cbn [negb] in Hd. destruct (negb _) eqn:Ht in Hd; [|discriminate Hd]. injection Hd as <-.
    destruct (agg_check_cases s l) as [Hk|[[Hk Hex]|[Hk _]]]; rewrite Hk in *; cbn [bind] in *;
      [destruct Ha as [Ha|Ha]; discriminate Ha| |reflexivity].
    exfalso. clear - H Hk. induction l as [|x l IH]; [discriminate Hk|]. inversion H as [|? ? Hx Hl]; subst. cbn [agg_check] in Hk. cbv beta in Hx. rewrite Hx, N.eqb_refl in Hk. cbn [negb] in Hk. destruct (negb _) in Hk; [discriminate Hk|auto].
  - assert (Ht : forallb (fun e => sig_time s =? sig_time e) l = true).
    { apply forallb_forall. intros x Hx. rewrite Forall_forall in H. rewrite (H x Hx). apply N.eqb_refl. }
    rewrite Ht in Hd. cbn [negb] in Hd. destruct (negb _) eqn:Hc in Hd; [|discriminate Hd]. injection Hd as <-.
    destruct (agg_check_cases s l) as [Hk|[[Hk _]|[Hk _]]]; rewrite Hk in *; cbn [bind] in *;
      [destruct Ha as [Ha|Ha]; discriminate Ha|reflexivity|].
    exfalso. clear - H Hk. induction l as [|x l IH]; [discriminate Hk|]. inversion H as [|? ? Hx Hl]; subst. cbn [agg_check] in Hk. cbv beta in Hx. rewrite Hx, N.eqb_refl in Hk. cbn [negb] in Hk. destruct (negb _) in Hk; [discriminate Hk|auto].
Qed.
Lemma doc_verify_aggregated_agrees : forall (E : env) (L : env_laws E) m (pp : pubparam E) s k ks msg,
  pp_ok pp -> Forall (fun e => g2_insub (pk_pk e) = true) (k :: ks) ->
  verify_aggregated m s (k :: ks) pp msg = Ok (doc_verify_aggregated s k ks pp msg).
Proof.
  intros E L m pp s k ks msg Hpp Hk. unfold verify_aggregated, doc_verify_aggregated.
  destruct (forallb (fun e => pp_cs pp =? pk_cs e) (k :: ks)); cbn [negb andb]; [|reflexivity].
  destruct (sig_cs s =? pp_cs pp); cbn [negb andb]; [|reflexivity].
  assert (Hf : forall l a, fold_left (fun a e => g2_add a (pk_pk e)) l a = fold_left g2_add (map (@pk_pk E) l) a).
  { induction l as [|e l IH]; intros a; [reflexivity|]. cbn [fold_left map]. apply IH. }
  rewrite Hf. apply (doc_verify_agrees E L); [exact Hpp|]. cbn [pk_pk]. inversion Hk as [|? ? Hk1 Hk2]; subst. clear Hk Hf. revert Hk1. generalize (pk_pk k).
  induction Hk2 as [|e ks He _ IH]; intros a Ha; cbn [map fold_left]; [exact Ha|]. apply IH. apply (l2_sub_add E L); assumption.
Qed.
Lemma doc_pk_validate_agrees : forall (E : env) (pk : pubkey E) pop, pk_validate pk pop = doc_pk_validate pk pop.
Proof.
  intros E pk pop. unfold pk_validate, doc_pk_validate, pop_msg. change (str "Pixel public key POP") with DOM_SEP_POP.
  destruct (valid_cs (pk_cs pk)); [|reflexivity]. cbn [negb andb]. destruct (pk_cs pk =? pop_cs pop); reflexivity.
Qed.
Lemma doc_sk_validate_agrees : forall (E : env) (L : env_laws E) m (pp : pubparam E) sk pk,
  pp_ok pp -> g2_insub (pk_pk pk) = true ->
  Forall (fun s => g2_insub (sk_g2r s) = true /\ g1_insub (sk_hpoly s) = true) (sec_ssk sk) ->
  (doc_sk_validate pp pk sk = true <->
   sk_validate m sk pk pp = Ok true /\ tiling (pp_depth pp) (sec_time sk) (map sk_t (sec_ssk sk))).
Proof.
  intros E L m pp sk pk Hpp Hpk Hsub. rewrite (validate_iff E L m pp sk pk Hpp Hpk Hsub).
  unfold doc_sk_validate. rewrite !Bool.andb_true_iff, !N.eqb_eq. pose proof (ppo_depth pp Hpp) as Hd.
  assert (Hss : forallb (doc_ssk_validate pp pk) (sec_ssk sk) = true <-> Forall (ssk_equation pp pk) (sec_ssk sk)).
  { rewrite forallb_forall, Forall_forall. clear -L. split; intros H s Hs; specialize (H s Hs); unfold doc_ssk_validate, ssk_equation in *.
    - destruct (doc_path_cases (pp_depth pp) (sk_t s)) as [(v & Hn & Hp)|[_ Hp]]; rewrite Hp in H; [|discriminate H].
      exists v. split; [exact Hn|]. apply (lt_eqb E L) in H. rewrite H, (doc_base_node L). apply (lt_comm E L).
    - destruct H as (v & Hn & H). rewrite (doc_path_node _ _ _ Hn). apply (lt_eqb E L). rewrite H, (doc_base_node L). apply (lt_comm E L). }
  rewrite Hss.
  destruct (doc_path_cases (pp_depth pp) (sec_time sk)) as [(v & Hn & ->)|[Hn ->]].
  - destruct (gamma_list_spec m (pp_depth pp) _ _ ltac:(lia) Hn) as (gl & Hgl & Hvp & Htil & _).
    destruct (doc_gamma_spec m (pp_depth pp) _ _ _ ltac:(lia) Hn Hgl) as [-> Hgn].
    assert (Ht : map (doc_time (pp_depth pp)) (map tv_vec (map (mk_tv (pp_depth pp)) gl)) = map (ptime (pp_depth pp)) gl).
    { rewrite !map_map. apply Forall_map in Hgn. clear -Hgn. induction Hgn as [|p gl Hp _ IH]; [reflexivity|]. cbn [map]. rewrite IH.
      f_equal. cbn [mk_tv tv_time tv_vec] in *. apply doc_time_node. exact Hp. }
    rewrite Ht, bytes_eqb_eq. split.
    + intros (((H1 & H2) & H3) & H4). rewrite H4. split; [|exact Htil]. split; [congruence|]. split; [exact H2|]. split; [exact (node_at_range _ _ _ Hn)|].
      split; [exists []; rewrite app_nil_r; exact Htil|exact H3].
    + intros ((H1 & H2 & _ & _ & H3) & H4). split; [split; [split; [congruence|exact H2]|exact H3]|]. exact (tiling_fun _ _ _ _ H4 Htil).
  - split; [intros [_ H]; discriminate H|]. intros ((_ & _ & H & _) & _). exfalso. destruct (node_at_ex _ _ H) as [v Hv]. exact (Hn v Hv).
Qed.
