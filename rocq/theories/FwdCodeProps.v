(** Lemmas behind Properties_Fwd.v: the code under the hash functions drawn. *)
From Coq Require Import ZArith Sorting.Sorted ZifyBool ZifyN ZifyNat.
From Verif Require Import Base Env NMod GroupFacts SpecTime Time TimeFacts Hkdf Prng SpecPrng PrngFacts SubKey SecretKey Keys Sig SpecKey SpecUpdate
  SubKeyFacts UpdateFacts KeyFacts HistoryFacts SpecAgg
  SpecRed SpecMulti SpecRom SpecPop SpecFwd KeyProps VerProps AggProps LinProps RedProps RandProps MultiProps RomProps PopProps PopCountProps FwdProps.
Local Open Scope N_scope.
Local Arguments N.add : simpl never.
Local Arguments N.mul : simpl never.
Local Arguments N.sub : simpl never.
Local Arguments N.modulo : simpl never.
Local Arguments pow2 : simpl never.

Lemma lookup_in {V} (l : list (bytes * V)) b v : lookup l b = Some v -> In (b, v) l.
Proof.
  unfold lookup. destruct (find _ l) as [p|] eqn:Hf; [|discriminate]. intros H. apply some_inj in H. apply find_some in Hf as [Hin Hb]. apply bytes_eqb_eq in Hb.
  subst. destruct p. exact Hin.
Qed.
Lemma lookup_cons {V} (l : list (bytes * V)) b v b' : lookup ((b, v) :: l) b' = if bytes_eqb b b' then Some v else lookup l b'.
Proof. unfold lookup. cbn [find fst]. destruct (bytes_eqb b b'); reflexivity. Qed.

Section Code.
Context {E : env} (L : env_laws E) (pp : pubparam E) (Hpp : pp_ok pp) (Hg2 : pp_g2 pp = g2_one) (Hcs : valid_cs (pp_cs pp) = true) (x : N)
  (H : bytes -> bytes) (Q : bytes -> bytes -> G1 E) (m : mode)
  (HH : forall b, length (H b) = 64%nat /\ are_bytes (H b)) (HQ : forall msg cs, g1_insub (Q msg cs) = true).
Notation EH := (code_env E H Q).
Notation d := (pp_depth pp).
Notation pp' := (@cv_pp E H Q pp).

Lemma LH : env_laws EH.
Proof. apply with_hash_laws; [apply (with_points_laws E L Q HQ)| |]; intros b; apply HH. Qed.
Lemma Hpp' : pp_ok pp'.
Proof. destruct Hpp. constructor; assumption. Qed.
Lemma lincomb_cv : forall v (hl : list (G1 E)), @lincomb EH v hl = @lincomb E v hl.
Proof. induction v as [|a v IH]; intros [|h hl]; try reflexivity. cbn [lincomb]. rewrite (IH hl). reflexivity. Qed.
Lemma node_val_cv v : @node_val EH pp' v = node_val pp v.
Proof. unfold node_val. cbn [cv_pp pp_hlist]. rewrite lincomb_cv. reflexivity. Qed.
Lemma honest_ssk_cv t v r : uv_ssk (@honest_ssk EH pp' x t v r) = honest_ssk pp x t v r.
Proof. unfold honest_ssk, uv_ssk. cbn [sk_t sk_g2r sk_hpoly sk_hvec]. rewrite node_val_cv. reflexivity. Qed.
Lemma honest_sig_cv t v M r : @honest_sig EH pp' x t v M r = cv_sig (honest_sig pp x t v M r).
Proof. unfold honest_sig, cv_sig, sig_val. cbn [sig_cs sig_time sig_1 sig_2]. rewrite node_val_cv. reflexivity. Qed.
Lemma uv_cv_sig (s : signature E) : @uv_sig E H Q (cv_sig s) = s.
Proof. destruct s. reflexivity. Qed.

Definition agree (cl : list (bytes * bytes)) : Prop := forall p, In p cl -> H (fst p) = snd p.
Lemma agree_app a b : agree (a ++ b) -> agree a /\ agree b.
Proof. intros Ha. split; intros p Hp; apply Ha, in_or_app; auto. Qed.
Lemma calls_hmac key text u out : (length key <= 128)%nat -> agree (calls key text u out) -> rfc_hmac H key text = out.
Proof.
  intros Hk Ha. unfold rfc_hmac. replace (length key <=? 128)%nat with true by lia.
  pose proof (Ha _ (or_introl eq_refl)) as H1. pose proof (Ha _ (or_intror (or_introl eq_refl))) as H2. cbn [fst snd] in H1, H2.
  etransitivity; [|exact H2]. unfold padded. f_equal. f_equal. exact H1.
Qed.
Lemma calls_ok key text u out : agree (calls key text u out) -> prng_ok out.
Proof. intros Ha. pose proof (Ha _ (or_intror (or_introl eq_refl))) as H2. cbn [snd] in H2. rewrite <- H2. apply HH. Qed.
Lemma prng_128 g : prng_ok g -> (length g <= 128)%nat.
Proof. intros [-> _]. lia. Qed.

Definition hk (p : N * N) : subkey EH := @honest_ssk EH pp' x (fst p) (path_of d (fst p)) (snd p).
Definition sk_of (w : world E) : seckey EH := @SecKey EH (pp_cs pp) (w_time w) (map hk (w_rho w)) (w_g w).
Lemma hk_times l : map sk_t (map hk l) = map fst l.
Proof. rewrite map_map. reflexivity. Qed.
Lemma good_of w : world_ok pp w -> prng_ok (w_g w) -> good_sk pp' x (sk_of w).
Proof.
  intros [H1 H2 H3] Hg. constructor; cbn [sk_of sec_cs sec_time sec_ssk sec_prng]; auto.
  - rewrite hk_times, H2. apply cover_tiling; [pose proof (ppo_depth pp Hpp); lia|exact H1].
  - apply Forall_map, Forall_forall. intros p Hin. exists (path_of d (fst p)), (snd p). split; [|reflexivity]. apply path_node.
    pose proof (cover_tiling d _ ltac:(pose proof (ppo_depth pp Hpp); lia) H1) as Htil. apply tiling_nodes in Htil. rewrite Forall_forall in Htil. apply Htil. rewrite <- H2. apply in_map, Hin.
Qed.

(** Signing. *)
Lemma sign_code w msg h u blk : world_ok pp w -> prng_ok (w_g w) -> H (hash_input (pp_cs pp) msg) = h ->
  agree (calls (w_g w) (sign_info msg (w_time w) ++ [1]) u blk) ->
  sign_present m (w_time w) pp' msg (sk_of w)
  = (Ok (cv_sig (honest_sig pp x (w_time w) (path_of d (w_time w)) (scalar_of h) ((snd (hd (0, 0) (w_rho w)) + scalar_of blk) mod fr_modulus))), sk_of w).
Proof.
  intros Hw Hg Hh Ha. pose proof (good_of w Hw Hg) as Hgood.
  destruct (sign_bytes_good LH m pp' x (sk_of w) msg Hpp' Hcs Hgood) as (v & r & Hn & (ssks & Hs) & Hb).
  unfold sign_present, sbind, sget, slift. change (sec_time (sk_of w)) with (w_time w) in *. rewrite N.eqb_refl. cbn [negb]. rewrite Hb. f_equal. f_equal.
  rewrite <- honest_sig_cv. apply node_path in Hn. change (pp_depth pp') with d in Hn.
  assert (Hr : r mod fr_modulus = snd (hd (0, 0) (w_rho w)) mod fr_modulus).
  { cbn [sk_of sec_ssk] in Hs. destruct (w_rho w) as [|p rho]; [discriminate Hs|]. cbn [map hd] in *. assert (Hs' := f_equal (fun l => match l with a :: _ => sk_g2r a | [] => g2_zero end) Hs). cbn in Hs'.
    symmetry. refine (mul2_cong LH (pp_g2 pp') _ _ _ _ Hs'); [apply (ppo_g2 _ Hpp')|]. cbn [cv_pp pp_g2]. rewrite Hg2. apply (l2_one_nz E L). }
  rewrite Hn. rewrite (honest_sig_mod LH pp' x (w_time w) v _ (r + _) Hpp'). f_equal.
  - change (scalar_of (H (hash_input (pp_cs pp) msg)) = scalar_of h). rewrite Hh. reflexivity.
  - rewrite <- (N.add_mod_idemp_l r), Hr, N.add_mod_idemp_l by discriminate. f_equal. f_equal.
    unfold spec_scalar, scalar_of, hkdf_T1. f_equal. f_equal. apply (calls_hmac _ _ u); [exact (prng_128 _ Hg)|exact Ha].
Qed.

(** Updates. *)
Lemma fresh_code r r' old : r mod fr_modulus = r' mod fr_modulus -> forall gl g A ks us l g' A' ks' us' cl,
  draw_keys r (map tv_time gl) g A ks us = Some (l, g', A', ks', us', cl) -> agree cl -> prng_ok g -> ~ In old ks ->
  Forall (fun tv => node_at d (tv_time tv) (tv_vec tv)) gl ->
  @spec_fresh EH pp' x r' old false gl g = Some (map hk l, g') /\ prng_ok g'.
Proof.
  intros Hr. induction gl as [|tv gl IH]; intros g A ks us l g' A' ks' us' cl Hd Ha Hg Ho Hn; cbn [map draw_keys] in Hd.
  - inversion Hd; subst. split; [reflexivity|exact Hg].
  - destruct A as [|b A], ks as [|g1 ks], us as [|u1 [|u2 us]]; try discriminate Hd.
    destruct (draw_keys r (map tv_time gl) g1 A ks us) as [[[[[[l0 g0] A0] ks0] us0] cl0]|] eqn:Hd'; [|discriminate Hd].
    apply some_inj in Hd. assert (El : l = (tv_time tv, (r + scalar_of b) mod fr_modulus) :: l0) by congruence. assert (Eg : g' = g0) by congruence.
    assert (Ec : cl = calls g (DOM_SEP_SK_UPDATE ++ [1]) u1 b ++ calls g (b ++ DOM_SEP_SK_UPDATE ++ [2]) u2 g1 ++ cl0) by congruence. clear Hd. subst.
    apply agree_app in Ha as [Ha1 Ha]. apply agree_app in Ha as [Ha2 Ha].
    assert (HT1 : hkdf_T1 H g DOM_SEP_SK_UPDATE = b) by (apply (calls_hmac _ _ u1); [exact (prng_128 _ Hg)|exact Ha1]).
    assert (HT2 : hkdf_T2 H g DOM_SEP_SK_UPDATE = g1) by (unfold hkdf_T2; rewrite HT1; apply (calls_hmac _ _ u2); [exact (prng_128 _ Hg)|exact Ha2]).
    pose proof (Forall_inv Hn) as Hn1. pose proof (Forall_inv_tail Hn) as Hn'. cbv beta in Hn1. apply calls_ok in Ha2.
    destruct (IH _ _ _ _ _ _ _ _ _ _ Hd' Ha Ha2 ltac:(intros Hi; apply Ho; right; exact Hi) Hn') as [Hf Hg'].
    split; [|exact Hg']. cbn [spec_fresh]. cbv zeta. change (sha512 EH) with H. unfold spec_next. rewrite HT2.
    assert (Hne : prng_eqb g1 old = false). { destruct (prng_eqb g1 old) eqn:Q0; [|reflexivity]. apply bytes_eqb_eq in Q0. subst. exfalso. apply Ho. left. reflexivity. }
    rewrite Hne, Hf. cbn [map]. unfold hk at 2. cbn [fst snd]. apply node_path in Hn1. rewrite Hn1. unfold spec_scalar. rewrite HT1. fold (scalar_of b).
    assert (X : @honest_ssk EH pp' x (tv_time tv) (tv_vec tv) (r' + scalar_of b) = @honest_ssk EH pp' x (tv_time tv) (tv_vec tv) ((r + scalar_of b) mod fr_modulus)).
    { rewrite (honest_ssk_mod LH pp' x (tv_time tv) (tv_vec tv) (r' + scalar_of b) Hpp'). f_equal.
      rewrite <- (N.add_mod_idemp_l r'), <- Hr, N.add_mod_idemp_l by discriminate. reflexivity. }
    rewrite X. reflexivity.
Qed.
Lemma split_unique (f : subkey EH -> bool) pre a post pre' a' post' :
  Forall (fun s => f s = true) pre -> f a = true -> Forall (fun s => f s = false) post ->
  Forall (fun s => f s = true) pre' -> f a' = true -> Forall (fun s => f s = false) post' ->
  pre ++ a :: post = pre' ++ a' :: post' -> pre = pre' /\ a = a' /\ post = post'.
Proof.
  intros H1 H2 H3 H1' H2' H3' He.
  assert (F : forall p b q, Forall (fun s => f s = true) p -> f b = true -> Forall (fun s => f s = false) q -> filter f (p ++ b :: q) = p ++ [b] /\ filter (fun s => negb (f s)) (p ++ b :: q) = q).
  { intros p b q F1 F2 F3. rewrite !filter_app. cbn [filter]. rewrite F2. cbn [negb]. rewrite (filter_all f p F1), (filter_none f q F3).
    rewrite (filter_none (fun s => negb (f s)) p), (filter_all (fun s => negb (f s)) q); [auto| |].
    - eapply Forall_impl; [|exact F3]. cbv beta. intros s ->. reflexivity.
    - eapply Forall_impl; [|exact F1]. cbv beta. intros s ->. reflexivity. }
  destruct (F _ _ _ H1 H2 H3) as [A1 A2]. destruct (F _ _ _ H1' H2' H3') as [B1 B2]. rewrite He in A1, A2. rewrite B1 in A1. rewrite B2 in A2.
  apply app_inj_tail in A1 as [-> ->]. auto.
Qed.
Lemma nodup_skip (k : nat) (l : list bytes) a : NoDup (a :: l) -> NoDup (nth k (a :: l) [] :: skipn k l) \/ (length l < k)%nat.
Proof.
  revert l a. induction k as [|k IH]; intros l a Hn; [left; exact Hn|]. destruct l as [|b l]; [right; cbn; lia|]. cbn [skipn nth]. inversion Hn as [|? ? _ Hn']; subst.
  destruct (IH l b Hn') as [Hl|Hl]; [left; exact Hl|right; cbn [length]; lia].
Qed.
Lemma update_code w t seed w' cl : world_ok pp w -> prng_ok (w_g w) -> NoDup (w_g w :: w_ks w) -> w_time w < t <= last_time d ->
  s_update pp w t seed = Some (w', cl) -> agree cl ->
  update m pp' t seed (sk_of w) = (Ok tt, sk_of w') /\ prng_ok (w_g w') /\ NoDup (w_g w' :: w_ks w').
Proof.
  intros Hw Hg Hnd Ht Hu Ha. pose proof (good_of w Hw Hg) as Hgood. pose proof (ppo_depth pp Hpp) as Hd64.
  destruct (parts_exist pp _ _ _ t Hpp eq_refl (wo_rho pp w Hw) (proj1 (wo_time pp w Hw)) Ht) as (pre & ta & r & post & fr & Hp).
  destruct (s_update_form pp w t seed w' cl _ _ _ _ _ Hp Hu) as (k2 & g0 & ks & u1 & v & u2 & u3 & us & l & g' & A' & ks' & us' & cl' & Hks & Hus & Hd & Hw'e & Hcl).
  rewrite Hcl in Ha. apply agree_app in Ha as [Ha1 Ha]. apply agree_app in Ha as [Ha2 Ha]. apply agree_app in Ha as [Ha3 Ha].
  set (info := DOM_SEP_SK_RERANDOMIZE_INFO ++ time_bytes (w_time w)) in *.
  assert (HT1 : hkdf_T1 H (w_g w) info = v) by (apply (calls_hmac _ _ u1); [exact (prng_128 _ Hg)|exact Ha1]).
  assert (HT2 : hkdf_T2 H (w_g w) info = k2) by (unfold hkdf_T2; rewrite HT1; apply (calls_hmac _ _ u2); [exact (prng_128 _ Hg)|exact Ha2]).
  assert (Hre : @spec_reseed EH (sk_of w) seed = g0).
  { unfold spec_reseed, spec_rerandomize. cbn [sk_of sec_prng sec_time]. change (sha512 EH) with H. fold info. rewrite HT1, HT2. apply (calls_hmac _ _ u3); [|exact Ha3]. apply prng_128. exact (calls_ok _ _ _ _ Ha2). }
  pose proof (calls_ok _ _ _ _ Ha3) as Hg0.
  rewrite Hks in Hnd. assert (Hnd0 : NoDup (g0 :: ks)) by (inversion Hnd as [|? ? _ N1]; inversion N1; assumption).
  assert (Hold : ~ In (w_g w) ks) by (inversion Hnd as [|? ? N0 _]; intros Hi; apply N0; right; right; exact Hi).
  assert (Hnd' : NoDup (w_g w' :: w_ks w')).
  { rewrite Hw'e. cbn [w_g w_ks]. destruct (draw_keys_streams _ _ _ _ _ _ _ _ _ _ _ _ Hd) as (-> & -> & _ & _ & _ & Hlk). destruct (nodup_skip (length fr) ks g0 Hnd0) as [Hn|Hn]; [exact Hn|lia]. }
  destruct (update_good LH m pp' x (sk_of w) t seed Hpp' Hgood Ht) as (pre' & ta' & va & r' & post' & Hsp & Hcase).
  destruct Hp as [Hrho Hta Hpre Hpost Hcov Hmade]. destruct Hsp as [Hl Hn Hc Hpre' Htil Hpost'].
  cbn [sk_of sec_ssk] in Hl. rewrite Hrho, map_app in Hl. cbn [map] in Hl.
  edestruct (split_unique (fun s => sk_t s <=? t)) as (E1 & E2 & E3); [| | | | | |exact Hl|].
  { apply Forall_map. eapply Forall_impl; [|exact Hpre]. cbv beta. intros p Hp0. cbn. lia. }
  { cbn. lia. }
  { apply Forall_map. eapply Forall_impl; [|exact Hpost]. cbv beta. intros p Hp0. cbn. lia. }
  { eapply Forall_impl; [|exact Hpre']. cbv beta. intros p Hp0. lia. }
  { cbn. lia. }
  { eapply Forall_impl; [|exact Hpost']. cbv beta. intros p Hp0. lia. }
  assert (Et : ta = ta') by exact (f_equal sk_t E2). subst ta'.
  assert (Hr : r mod fr_modulus = r' mod fr_modulus).
  { refine (mul2_cong LH (pp_g2 pp') _ _ _ _ (f_equal sk_g2r E2)); [apply (ppo_g2 _ Hpp')|]. cbn [cv_pp pp_g2]. rewrite Hg2. apply (l2_one_nz E L). }
  destruct Hcase as [[Heq Hup]|(Hlt & tv & gpre & gpost & Htv & Hgl & (gpre' & Hgp) & Htl & Hgpost & Hnodes & Hup)].
  - destruct Hmade as [(_ & -> & _)|(Hlt & _)]; [|lia]. cbn [draw_keys] in Hd. apply some_inj in Hd. assert (l = [] /\ g' = g0) as [-> ->] by (split; congruence).
    rewrite Hup, Hre, Hw'e. split; [|split; [exact Hg0|]].
    + f_equal. unfold sk_of. cbn [sec_cs w_time w_rho w_g map app]. rewrite <- E3, <- E2, Heq. reflexivity.
    + rewrite <- Hw'e. exact Hnd'.
  - assert (Hgm : map tv_time gpre = t :: fr).
    { apply (app_inv_tail (map sk_t post')). rewrite <- E3 at 2. rewrite hk_times. cbn [app]. rewrite <- Hcov. apply (tiling_fun d t); [exact Htl|]. apply cover_tiling; [lia|]. pose proof (wo_time pp w Hw). lia. }
    rewrite Hgp in Hgm, Hnodes. cbn [map] in Hgm. assert (Etv : tv_time tv = t) by congruence. assert (Efr : map tv_time gpre' = fr) by congruence. clear Hgm.
    pose proof (Forall_inv Hnodes) as [Hn1 _]. pose proof (Forall_inv_tail Hnodes) as Hn2.
    rewrite <- Efr in Hd.
    destruct (fresh_code r r' (w_g w) Hr gpre' g0 (w_A w) ks us l g' A' ks' us' cl' Hd Ha Hg0 Hold) as [Hf Hg'].
    { eapply Forall_impl; [|exact Hn2]. cbv beta. intros a [Ha0 _]. exact Ha0. }
    rewrite Hup, Hgp, Hre. cbn [spec_fresh sk_of sec_prng]. rewrite Hf. split; [|split; [rewrite Hw'e; exact Hg'|exact Hnd']].
    f_equal. rewrite Hw'e. unfold sk_of. cbn [sec_cs w_time w_rho w_g map]. rewrite map_app, E3. f_equal. cbn [app]. f_equal.
    apply node_path in Hn1. rewrite Etv in *. unfold hk. cbn [fst snd]. change (pp_depth pp') with d in Hn1. rewrite Hn1.
    rewrite (honest_ssk_mod LH pp' x t (tv_vec tv) r Hpp'), (honest_ssk_mod LH pp' x t (tv_vec tv) r' Hpp'), Hr. reflexivity.
Qed.

(** The whole game. *)
Context (tb : N) (hs : list bytes) (pts : list (G1 E)).
Definition answers (o : outcome E) : Prop :=
  (forall b h, In b (o_tbl o) -> nth_error hs (position (o_tbl o) b) = Some h -> H b = h)
  /\ (forall msg cs p, In (point_input msg cs) (o_ptbl o) -> nth_error pts (position (o_ptbl o) (point_input msg cs)) = Some p -> Q msg cs = p).
Lemma asked_hash w o b h : answers o -> grows (set_tbl w (enter (w_tbl w) b)) o -> nth_error hs (position (w_tbl w) b) = Some h -> H b = h.
Proof.
  intros [Ha _] [[e He] _] Hh. cbn [set_tbl w_tbl] in He. apply Ha; rewrite He; [apply in_or_app; left; apply enter_in|].
  rewrite position_app by apply enter_in. rewrite enter_pos. exact Hh.
Qed.
Lemma asked_point w o msg cs p : answers o -> grows (set_ptbl w (enter (w_ptbl w) (point_input msg cs))) o ->
  nth_error pts (position (w_ptbl w) (point_input msg cs)) = Some p -> Q msg cs = p.
Proof.
  intros [_ Ha] [_ [e He]] Hh. cbn [set_ptbl w_ptbl] in He. apply Ha; rewrite He; [apply in_or_app; left; apply enter_in|].
  rewrite position_app by apply enter_in. rewrite enter_pos. exact Hh.
Qed.
Lemma tail_code : forall f w o, s_tail pp hs pts w f = Some o -> answers o -> agree (w_own w) ->
  tail_run H Q f = Some (o_msg o, o_sig o, o_list o).
Proof.
  induction f as [msg s l|t k IH|t msg k IH|b k IH|msg cs k IH]; intros w o Hr Ha Ho; cbn [s_tail] in Hr; try discriminate Hr; cbn [tail_run].
  - apply s_end_some in Hr as (_ & _ & ->). reflexivity.
  - destruct (lookup (w_own w) b) as [v|] eqn:Hlk.
    + apply lookup_in in Hlk. apply Ho in Hlk. cbn [fst snd] in Hlk. rewrite Hlk. exact (IH _ _ _ Hr Ha Ho).
    + destruct (nth_error hs _) as [h|] eqn:Hh; [|discriminate Hr].
      rewrite (asked_hash _ _ _ _ Ha (proj1 (s_tail_grows pp hs pts _ _ _ Hr)) Hh). exact (IH _ _ _ Hr Ha Ho).
  - cbv zeta in Hr. destruct (nth_error pts _) as [p|] eqn:Hh; [|discriminate Hr].
    rewrite (asked_point _ _ _ _ _ Ha (proj1 (s_tail_grows pp hs pts _ _ _ Hr)) Hh). exact (IH _ _ _ Hr Ha Ho).
Qed.
Lemma uv_sk_of w : uv_sk (sk_of w) = SecKey (pp_cs pp) (w_time w) (s_ssks pp x (w_rho w)) (w_g w).
Proof.
  unfold uv_sk, sk_of. cbn [sec_cs sec_time sec_ssk sec_prng]. f_equal. rewrite map_map. apply map_ext. intros p. apply honest_ssk_cv.
Qed.
Record ready (w : world E) : Prop := Ready {
  re_ok : world_ok pp w; re_g : prng_ok (w_g w); re_nd : NoDup (w_g w :: w_ks w); re_own : agree (w_own w);
  re_cache : forall msg s, lookup (w_cache w) msg = Some s -> sign_present m (w_time w) pp' msg (sk_of w) = (Ok (cv_sig s), sk_of w) }.

Lemma run_code : forall f w o, s_run pp x tb hs pts w f = Some o -> ready w -> answers o -> agree (o_calls o) ->
  code_run H Q m pp (sk_of w) f = Some (o_msg o, o_sig o, o_list o, o_ev o).
Proof.
  induction f as [msg s l|k|t seed k IH|t msg k IH|b k IH|msg cs k IH]; intros w o Hr Hw Ha Hc; cbn [s_run] in Hr; cbn [code_run].
  - destruct (tb =? 0); [|discriminate Hr]. apply add_some in Hr as (o' & Hr & ->). apply s_end_some in Hr as (_ & _ & ->). reflexivity.
  - destruct (negb (tb =? 0) && (w_time w =? tb)) eqn:Hb; [|discriminate Hr]. apply add_some in Hr as (o' & Hr & ->).
    destruct (s_tail_grows _ _ _ _ _ _ Hr) as (_ & Hev & _). rewrite uv_sk_of, (tail_code _ _ _ Hr Ha (re_own w Hw)). cbn [o_msg o_sig o_list o_ev sk_of sec_time]. rewrite Hev.
    replace (w_time w) with tb by lia. reflexivity.
  - destruct ((w_time w <? t) && _) eqn:Hrg.
    + destruct (_ || _); [|discriminate Hr]. destruct (s_update pp w t seed) as [[w' cl]|] eqn:Hu; [|discriminate Hr]. apply add_some in Hr as (o' & Hr & ->).
      cbn [o_calls] in Hc. apply agree_app in Hc as [Hc1 Hc2]. destruct Hw as [Hok Hg Hnd Hown Hca].
      destruct (update_code w t seed w' cl Hok Hg Hnd ltac:(lia) Hu Hc1) as (-> & Hg' & Hnd').
      destruct (s_update_ok pp w t seed w' cl Hpp Hok ltac:(lia) Hu) as [Hok' _].
      destruct (s_update_tables _ _ _ _ _ _ Hu) as (_ & _ & _ & E4 & E5).
      cbn [o_msg o_sig o_list o_ev app]. apply (IH _ _ _ Hr); [|exact Ha|exact Hc2].
      constructor; auto; [rewrite E5; intros p []|]. rewrite E4. intros msg s Hs. discriminate Hs.
    + rewrite (update_time_err m pp' (sk_of w) t seed (ppo_depth _ Hpp') eq_refl) by (cbn [sk_of sec_time cv_pp pp_depth]; lia). exact (IH _ _ _ Hr Hw Ha Hc).
  - destruct (N.eqb_spec (w_time w) t) as [Ht|Ht]; cbn [negb] in Hr.
    2:{ assert (He : sign_present m t pp' msg (sk_of w) = (Err E_TIME_STAMP, sk_of w)).
        { unfold sign_present, sbind, sget, slift. change (sec_time (sk_of w)) with (w_time w). replace (w_time w =? t) with false by lia. reflexivity. }
        rewrite He. cbn [is_ok res_map]. rewrite (IH _ _ _ Hr Hw Ha Hc). reflexivity. }
    subst t. destruct (lookup (w_cache w) msg) as [s|] eqn:Hlk.
    { apply add_some in Hr as (o' & Hr & ->). rewrite (re_cache w Hw _ _ Hlk). cbn [is_ok res_map]. rewrite uv_cv_sig.
      rewrite (IH _ _ _ Hr Hw Ha Hc). reflexivity. }
    cbv zeta in Hr. destruct (nth_error hs _) as [h|] eqn:Hh; [|discriminate Hr]. destruct (w_us w) as [|u us]; [discriminate Hr|].
    destruct (if w_time w =? tb then w_B w else w_A w) as [|blk rest]; [discriminate Hr|]. apply add_some in Hr as (o' & Hr & ->).
    cbn [o_calls] in Hc. apply agree_app in Hc as [Hc1 Hc2]. destruct Hw as [Hok Hg Hnd Hown Hca].
    match type of Hr with s_run _ _ _ _ _ ?w0 _ = _ => set (w' := w0) in * end.
    pose proof (s_run_grows pp x tb hs pts _ _ _ Hr) as Hgr.
    assert (Hhh : H (hash_input (pp_cs pp) msg) = h) by (exact (asked_hash w _ _ _ Ha Hgr Hh)).
    pose proof (sign_code w msg h u blk Hok Hg Hhh Hc1) as Hs. rewrite Hs. cbn [is_ok res_map]. rewrite uv_cv_sig.
    change (sk_of w) with (sk_of w'). rewrite (IH _ _ _ Hr); [reflexivity| |exact Ha|exact Hc2].
    constructor; auto.
    + destruct Hok as [O1 O2 O3]. constructor; assumption.
    + cbn [w' w_own]. intros p Hp. apply in_app_or in Hp as [Hp|Hp]; [exact (Hc1 _ Hp)|exact (Hown _ Hp)].
    + cbn [w' w_cache w_time]. intros msg' s'. rewrite lookup_cons. change (sk_of w') with (sk_of w). destruct (bytes_eqb msg msg') eqn:Qm; [|apply Hca].
      apply bytes_eqb_eq in Qm. subst msg'. intros He. apply some_inj in He. rewrite He. exact Hs.
  - destruct (nth_error hs _) as [h|] eqn:Hh; [|discriminate Hr]. pose proof (s_run_grows pp x tb hs pts _ _ _ Hr) as Hgr.
    rewrite (asked_hash w _ _ _ Ha Hgr Hh). apply (IH _ (set_tbl w (enter (w_tbl w) b)) _ Hr); auto. destruct Hw as [[O1 O2 O3] ? ? ? ?]. constructor; auto. constructor; auto.
  - cbv zeta in Hr. destruct (nth_error pts _) as [p|] eqn:Hh; [|discriminate Hr]. pose proof (s_run_grows pp x tb hs pts _ _ _ Hr) as Hgr.
    rewrite (asked_point w _ _ _ _ Ha Hgr Hh). apply (IH _ (set_ptbl w (enter (w_ptbl w) (point_input msg cs))) _ Hr); auto. destruct Hw as [[O1 O2 O3] ? ? ? ?]. constructor; auto. constructor; auto.
Qed.
End Code.
