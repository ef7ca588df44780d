(** Lemmas behind Properties_Fwd.v: from forgeries in the game with the code to those in SpecPop.v. *)
From Coq Require Import ZArith Sorting.Sorted ZifyBool ZifyN ZifyNat.
From Verif Require Import Base Env NMod GroupFacts SpecTime Time TimeFacts Hkdf Prng SpecPrng PrngFacts SubKey SecretKey Keys Sig SpecKey SpecUpdate
  SubKeyFacts UpdateFacts KeyFacts HistoryFacts SpecAgg
  SpecRed SpecMulti SpecRom SpecPop SpecFwd KeyProps VerProps AggProps LinProps RedProps RandProps MultiProps RomProps PopProps CountProps PopCountProps
  FwdProps FwdCodeProps FwdGameProps.
Local Open Scope N_scope.
Local Arguments N.add : simpl never.
Local Arguments N.mul : simpl never.
Local Arguments N.sub : simpl never.
Local Arguments N.modulo : simpl never.
Local Arguments pow2 : simpl never.

(** * The hash functions drawn *)
Lemma lookup_nodup {V} : forall (l : list (bytes * V)) b v, NoDup (map fst l) -> In (b, v) l -> lookup l b = Some v.
Proof.
  induction l as [|[b' v'] l IH]; intros b v Hn Hi; [destruct Hi|]. rewrite lookup_cons. cbn [map fst] in Hn. inversion Hn as [|? ? Hn1 Hn2]; subst. destruct (bytes_eqb b' b) eqn:Q.
  - apply bytes_eqb_eq in Q. subst b'. destruct Hi as [He|Hi]; [congruence|]. exfalso. apply Hn1. apply (in_map fst) in Hi. exact Hi.
  - destruct Hi as [He|Hi]; [|exact (IH _ _ Hn2 Hi)]. exfalso. assert (b' = b) by congruence. subst. assert (bytes_eqb b b = true) by (apply bytes_eqb_eq; reflexivity). congruence.
Qed.
Lemma lookup_none {V} (l : list (bytes * V)) b : ~ In b (map fst l) -> lookup l b = None.
Proof.
  intros Hn. destruct (lookup l b) as [v|] eqn:Q; [|reflexivity]. apply lookup_in in Q. exfalso. apply Hn. apply (in_map fst) in Q. exact Q.
Qed.
Lemma table_value tbl hs b : Forall hash_value hs -> hash_value (table tbl hs b).
Proof.
  intros Hh. unfold table. match goal with |- context [nth ?n ?l ?z] => destruct (nth_in_or_default n l z) as [Hi| ->] end; [rewrite Forall_forall in Hh; apply Hh, Hi|].
  split; [apply repeat_length|]. apply Forall_forall. intros y Hy. apply repeat_spec in Hy. subst. reflexivity.
Qed.
Lemma sampled_value hs tbl cl b : Forall hash_value hs -> values cl -> hash_value (sampled_hash hs tbl cl b).
Proof.
  intros Hh Hv. unfold sampled_hash. destruct (lookup cl b) as [v|] eqn:Q; [|apply table_value, Hh]. apply lookup_in in Q. unfold values in Hv. rewrite Forall_forall in Hv. exact (Hv _ Q).
Qed.
Lemma sampled_agree hs tbl cl : NoDup (map fst cl) -> agree (sampled_hash hs tbl cl) cl.
Proof. intros Hn [b v] Hi. cbn [fst snd]. unfold sampled_hash. rewrite (lookup_nodup cl b v Hn Hi). reflexivity. Qed.
Lemma sampled_table hs tbl cl b : ~ In b (map fst cl) -> sampled_hash hs tbl cl b = table tbl hs b.
Proof. intros Hn. unfold sampled_hash. rewrite (lookup_none _ _ Hn). reflexivity. Qed.
Lemma points_insub {E} (L : env_laws E) tbl (g : G1 E) zs msg cs : g1_insub g = true -> g1_insub (points tbl (map (fun e => g1_mul e g) zs) msg cs) = true.
Proof.
  intros Hg. unfold points. match goal with |- context [nth ?n ?l ?z] => destruct (nth_in_or_default n l z) as [Hi| ->] end; [|apply (l1_sub0 E L)].
  apply in_map_iff in Hi as (e & <- & _). apply (g1_mul_insub L), Hg.
Qed.
Lemma sampled_answers {E} hs pts (o : outcome E) : (forall b, In b (map fst (o_calls o)) -> ~ In b (o_tbl o)) ->
  answers (sampled_hash hs (o_tbl o) (o_calls o)) (points (o_ptbl o) pts) hs pts o.
Proof.
  intros Hc. split.
  - intros b h Hb Hh. rewrite sampled_table by (intros Hi; exact (Hc b Hi Hb)). unfold table. exact (nth_error_nth _ _ _ Hh).
  - intros msg cs p _ Hp. unfold points. exact (nth_error_nth _ _ _ Hp).
Qed.

(** The input of the message is in the table. *)
Lemma s_tail_end {E} (pp : pubparam E) hs pts : forall f w o, s_tail pp hs pts w f = Some o -> In (hash_input (pp_cs pp) (o_msg o)) (o_tbl o).
Proof.
  induction f as [msg s l|t k IH|t msg k IH|b k IH|msg cs k IH]; intros w o H; cbn [s_tail] in H; try discriminate H.
  - apply s_end_some in H as (_ & _ & ->). apply enter_in.
  - destruct (lookup _ b) as [v|]; [exact (IH _ _ _ H)|]. destruct (nth_error _ _) as [h|]; [|discriminate H]. exact (IH _ _ _ H).
  - cbv zeta in H. destruct (nth_error _ _) as [p|]; [|discriminate H]. exact (IH _ _ _ H).
Qed.
Lemma s_run_end {E} (pp : pubparam E) x tb hs pts : forall f w o, s_run pp x tb hs pts w f = Some o -> In (hash_input (pp_cs pp) (o_msg o)) (o_tbl o).
Proof.
  induction f as [msg s l|k|t seed k IH|t msg k IH|b k IH|msg cs k IH]; intros w o H; cbn [s_run] in H.
  - destruct (tb =? 0); [|discriminate H]. apply add_some in H as (o' & H & ->). apply s_end_some in H as (_ & _ & ->). apply enter_in.
  - destruct (negb (tb =? 0) && _); [|discriminate H]. apply add_some in H as (o' & H & ->). exact (s_tail_end _ _ _ _ _ _ H).
  - destruct (_ && _); [|exact (IH _ _ _ H)]. destruct (_ || _); [|discriminate H].
    destruct (s_update pp w t seed) as [[w' cl]|] eqn:Hu; [|discriminate H]. apply add_some in H as (o' & H & ->). exact (IH _ _ _ H).
  - destruct (negb _); [exact (IH _ _ _ H)|]. destruct (lookup _ msg) as [s|]; [apply add_some in H as (o' & H & ->); exact (IH _ _ _ H)|].
    destruct (nth_error _ _) as [h|]; [|discriminate H]. destruct (w_us w) as [|u us]; [discriminate H|]. destruct (if t =? tb then w_B w else w_A w) as [|blk rest]; [discriminate H|].
    apply add_some in H as (o' & H & ->). exact (IH _ _ _ H).
  - destruct (nth_error _ _) as [h|]; [|discriminate H]. exact (IH _ _ _ H).
  - cbv zeta in H. destruct (nth_error _ _) as [p|]; [|discriminate H]. exact (IH _ _ _ H).
Qed.

(** Verification there and back. *)
Lemma forallb_cv {E} H Q cs (l : list (pubkey E)) : forallb (fun e => cs =? pk_cs e) (map (cv_pk (H := H) (Q := Q)) l) = forallb (fun e => cs =? pk_cs e) l.
Proof. induction l as [|k l IH]; [reflexivity|]. cbn [map forallb]. rewrite IH. reflexivity. Qed.
Lemma fold_cv {E} H Q (l : list (pubkey E)) : forall a : G2 E,
  fold_left (fun (a : G2 (code_env E H Q)) e => g2_add a (pk_pk e)) (map (cv_pk (H := H) (Q := Q)) l) a = fold_left (fun a e => g2_add a (pk_pk e)) l a.
Proof. induction l as [|k l IH]; intros a; [reflexivity|]. cbn [map fold_left]. exact (IH (g2_add a (pk_pk k))). Qed.
Lemma poly_cv {E} H Q (hl : list (G1 E)) : forall v i (acc : G1 E), @poly_loop (code_env E H Q) hl i v acc = @poly_loop E hl i v acc.
Proof. induction v as [|x v IH]; intros i acc; [reflexivity|]. cbn [poly_loop]. change (@nth_res (G1 (code_env E H Q)) hl (i + 1)) with (@nth_res (G1 E) hl (i + 1)). destruct (@nth_res (G1 E) hl (i + 1)) as [h| |]; [|reflexivity|reflexivity]. cbn [bind]. exact (IH _ _). Qed.
Lemma verify_agg_cv {E} H Q m (s : signature E) (pp : pubparam E) pks msg :
  @verify_aggregated (code_env E H Q) m (cv_sig s) (map cv_pk pks) (cv_pp pp) msg
  = (if negb (forallb (fun e => pp_cs pp =? pk_cs e) pks) then Ok false
     else if negb (sig_cs s =? pp_cs pp) then Ok false
     else match pks with
          | [] => Panic P_INDEX
          | k :: pks' =>
            let agg := fold_left (fun a e => g2_add a (pk_pk e)) pks' (pk_pk k) in
            if negb (valid_cs (pp_cs pp)) then Ok false
            else if negb (sig_cs s =? pp_cs pp) then Ok false
            else let! hm := os2ip_mod_p (H (hash_input (pp_cs pp) msg)) in verify_fr m s (PubKey (pp_cs pp) agg) pp hm
          end).
Proof.
  unfold verify_aggregated. cbv zeta. change (pp_cs (cv_pp pp)) with (pp_cs pp). rewrite forallb_cv.
  destruct (negb (forallb _ pks)); [reflexivity|]. cbn [cv_sig sig_cs]. destruct (negb (sig_cs s =? pp_cs pp)) eqn:Q0; [reflexivity|].
  destruct pks as [|k pks]; [reflexivity|]. cbn [map]. change (pk_pk (cv_pk k)) with (pk_pk k). rewrite fold_cv.
  unfold verify, hash_msg_into_fr. change (sha512 (code_env E H Q)) with H. cbn [cv_pp pp_cs cv_sig sig_cs]. destruct (negb (valid_cs (pp_cs pp))); [reflexivity|]. rewrite ?Q0.
  unfold hash_input. cbn [app]. destruct (os2ip_mod_p _) as [hm| |]; [|reflexivity|reflexivity]. cbn [bind].
  unfold verify_fr. cbn [cv_sig cv_pp sig_1 sig_2 sig_time pp_depth pp_hlist pp_g2 pp_h pk_pk]. change (@g2_insub (code_env E H Q)) with (@g2_insub E). change (@g1_insub (code_env E H Q)) with (@g1_insub E).
  destruct (_ || _); [reflexivity|]. change (@nth_res (G1 (code_env E H Q))) with (@nth_res (G1 E)). destruct (nth_res (pp_hlist pp) 0) as [h0| |]; [|reflexivity|reflexivity]. cbn [bind].
  destruct (tv_init m (sig_time s) (pp_depth pp)) as [tv| |]; [|reflexivity|reflexivity].
  rewrite (poly_cv H Q). reflexivity.
Qed.
Lemma verify_cv_re {E} H Q H' m (s : signature E) (pp : pubparam E) pks msg : H (hash_input (pp_cs pp) msg) = H' (hash_input (pp_cs pp) msg) ->
  @verify_aggregated (code_env E H Q) m (cv_sig s) (map cv_pk pks) (cv_pp pp) msg = @verify_aggregated (with_hash E H') m (re_sig s) (map re_pk pks) (re_pp pp) msg.
Proof. intros He. rewrite verify_agg_cv, verify_agg_re, He. reflexivity. Qed.
Lemma verify_range {E} H m (s : signature E) (pp : pubparam E) pks msg : (pp_depth pp < 64)%nat ->
  @verify_aggregated (with_hash E H) m (re_sig s) (map re_pk pks) (re_pp pp) msg = Ok true -> 1 <= sig_time s <= last_time (pp_depth pp).
Proof.
  intros Hd. rewrite verify_agg_re. destruct (negb _); [discriminate|]. destruct (negb _); [discriminate|]. destruct pks as [|k pks]; [discriminate|]. cbv zeta.
  destruct (negb _); [discriminate|]. destruct (os2ip_mod_p _) as [hm| |]; [|discriminate|discriminate]. cbn [bind]. unfold verify_fr. destruct (_ || _); [discriminate|].
  destruct (nth_res _ _) as [h0| |]; [|discriminate|discriminate]. cbn [bind]. destruct (tv_init m (sig_time s) (pp_depth pp)) as [tv| |] eqn:Htv; [|discriminate|discriminate]. intros _.
  apply tv_init_node in Htv as [_ Hn]; [|lia]. exact (node_at_range _ _ _ Hn).
Qed.

(** * Key generation *)
Section Init.
Context {E : env} (L : env_laws E) (pp : pubparam E) (Hpp : pp_ok pp) (Hg2 : pp_g2 pp = g2_one) (Hcs : valid_cs (pp_cs pp) = true).
Lemma cover_root : cover (pp_depth pp) 1 = [1].
Proof.
  pose proof (ppo_depth pp Hpp). apply (tiling_fun (pp_depth pp) 1); [|apply root_tiling; lia]. apply cover_tiling; [lia|]. pose proof (last_time_ge1 (pp_depth pp) ltac:(lia)). lia.
Qed.
Lemma path_root : path_of (pp_depth pp) 1 = [].
Proof. apply node_path, root_node. pose proof (ppo_depth pp Hpp). lia. Qed.
Lemma init_ok seed bx A B ks us w cl (pk : pubkey E) : s_init (pp_cs pp) pk seed bx A B ks us = Some (w, cl) -> world_ok pp w /\ w_time w = 1 /\ w_trash w = [] /\ w_ptbl w = [pop_input pk]
  /\ w_tbl w = [] /\ w_cache w = [] /\ w_own w = [] /\ weight w = length A /\ w_g w = nth 2 ks [] /\ w_B w = B /\ w_ks w = skipn 3 ks /\ w_us w = skipn 5 us.
Proof.
  unfold s_init. destruct A as [|b A]; [discriminate|]. destruct ks as [|s0 [|s1 [|s2 ks]]]; try discriminate. destruct us as [|u0 [|u1 [|u2 [|u3 [|u4 us]]]]]; try discriminate.
  intros H. apply some_pair in H as [-> _]. cbn [w_time w_trash w_ptbl w_tbl w_cache w_own w_g w_B w_ks w_us]. split; [|auto 12].
  constructor; cbn [w_time w_rho].
  - pose proof (last_time_ge1 (pp_depth pp)). pose proof (ppo_depth pp Hpp). lia.
  - rewrite cover_root. reflexivity.
  - constructor; [apply scalar_lt|constructor].
Qed.
Lemma init_values seed bx A B ks us w cl (pk : pubkey E) : s_init (pp_cs pp) pk seed bx A B ks us = Some (w, cl) -> hash_value bx -> Forall hash_value A -> Forall hash_value B -> Forall hash_value ks -> Forall hash_value us ->
  values cl /\ streams_ok w.
Proof.
  unfold s_init. destruct A as [|b A]; [discriminate|]. destruct ks as [|s0 [|s1 [|s2 ks]]]; try discriminate. destruct us as [|u0 [|u1 [|u2 [|u3 [|u4 us]]]]]; try discriminate.
  intros H Hx HA HB Hk Hu. apply some_pair in H as [-> ->].
  pose proof (Forall_inv HA) as A0. apply Forall_inv_tail in HA. pose proof (Forall_inv Hk) as K0. apply Forall_inv_tail in Hk. pose proof (Forall_inv Hk) as K1. apply Forall_inv_tail in Hk.
  pose proof (Forall_inv Hk) as K2. apply Forall_inv_tail in Hk. pose proof (Forall_inv Hu) as U0. apply Forall_inv_tail in Hu. pose proof (Forall_inv Hu) as U1. apply Forall_inv_tail in Hu.
  pose proof (Forall_inv Hu) as U2. apply Forall_inv_tail in Hu. pose proof (Forall_inv Hu) as U3. apply Forall_inv_tail in Hu. pose proof (Forall_inv Hu) as U4. apply Forall_inv_tail in Hu.
  split; [|constructor; assumption].
  apply Forall_app. split; [apply values_calls; assumption|]. apply Forall_app. split; [apply values_calls; assumption|]. apply Forall_app. split; [apply values_calls; assumption|].
  apply Forall_app. split; apply values_calls; assumption.
Qed.
Lemma init_code H Q m (HH : forall b, length (H b) = 64%nat /\ are_bytes (H b)) (HQ : forall msg cs, g1_insub (Q msg cs) = true)
    seed bx A B ks us w cl (pk : pubkey E) : s_init (pp_cs pp) pk seed bx A B ks us = Some (w, cl) -> (32 <= length seed)%nat -> agree H cl -> NoDup ks ->
  @key_gen (code_env E H Q) seed (cv_pp pp)
  = Ok (@PubKey (code_env E H Q) (pp_cs pp) (g2_mul (scalar_of bx) (pp_g2 pp)), sk_of pp (scalar_of bx) H Q w,
        @Pop (code_env E H Q) (pp_cs pp) (g1_mul (scalar_of bx) (Q (pop_msg (g2_mul (scalar_of bx) (pp_g2 pp))) [pp_cs pp])))
  /\ ready pp (scalar_of bx) H Q m w.
Proof.
  intros Hi Hl Ha Hn. destruct (init_ok _ _ _ _ _ _ _ _ _ Hi) as (Hw & Ht & _ & _ & _ & Hc & Ho & _).
  unfold s_init in Hi. destruct A as [|b A]; [discriminate|]. destruct ks as [|s0 [|s1 [|s2 ks]]]; try discriminate. destruct us as [|u0 [|u1 [|u2 [|u3 [|u4 us]]]]]; try discriminate.
  apply some_pair in Hi as [-> ->]. apply agree_app in Ha as [Ha0 Ha]. apply agree_app in Ha as [Ha1 Ha]. apply agree_app in Ha as [Ha2 Ha]. apply agree_app in Ha as [Ha3 Ha4].
  pose proof (calls_ok H HH _ _ _ _ Ha0) as Hs0. pose proof (calls_ok H HH _ _ _ _ Ha2) as Hs1. pose proof (calls_ok H HH _ _ _ _ Ha4) as Hs2.
  assert (M0 : @spec_master (code_env E H Q) (cv_pp pp) seed = s0) by (apply (calls_hmac pp H Q HH HQ _ _ u0); [vm_compute; lia|exact Ha0]).
  assert (M1 : hkdf_T1 H s0 KEY_INIT_INFO = bx) by (apply (calls_hmac pp H Q HH HQ _ _ u1); [rewrite (proj1 Hs0); lia|exact Ha1]).
  assert (M2 : hkdf_T2 H s0 KEY_INIT_INFO = s1) by (unfold hkdf_T2; rewrite M1; apply (calls_hmac pp H Q HH HQ _ _ u2); [rewrite (proj1 Hs0); lia|exact Ha2]).
  assert (M3 : hkdf_T1 H s1 SK_INIT_INFO = b) by (apply (calls_hmac pp H Q HH HQ _ _ u3); [rewrite (proj1 Hs1); lia|exact Ha3]).
  assert (M4 : hkdf_T2 H s1 SK_INIT_INFO = s2) by (unfold hkdf_T2; rewrite M3; apply (calls_hmac pp H Q HH HQ _ _ u4); [rewrite (proj1 Hs1); lia|exact Ha4]).
  assert (Mx : @spec_x (code_env E H Q) (cv_pp pp) seed = scalar_of bx) by (unfold spec_x, spec_scalar; rewrite M0; change (sha512 (code_env E H Q)) with H; rewrite M1; reflexivity).
  assert (Mg1 : @spec_g1 (code_env E H Q) (cv_pp pp) seed = s1) by (unfold spec_g1, spec_next; rewrite M0; exact M2).
  assert (Mr : @spec_r (code_env E H Q) (cv_pp pp) seed = scalar_of b) by (unfold spec_r, spec_scalar; rewrite Mg1; change (sha512 (code_env E H Q)) with H; rewrite M3; reflexivity).
  assert (Mg2 : @spec_g2 (code_env E H Q) (cv_pp pp) seed = s2) by (unfold spec_g2, spec_next; rewrite Mg1; exact M4).
  split.
  - rewrite (key_gen_spec (LH L H Q HH HQ) (cv_pp pp) seed Hl Hcs (Hpp' pp Hpp H Q)), Mx, Mr, Mg2. unfold sk_of. cbn [w_time w_rho w_g map]. unfold hk. cbn [fst snd]. rewrite path_root. reflexivity.
  - constructor; [exact Hw|exact Hs2| |rewrite Ho; intros p []|rewrite Hc; intros msg s Hs; discriminate Hs]. cbn [w_g w_ks]. inversion Hn as [|? ? _ N1]; inversion N1 as [|? ? _ N2]; exact N2.
Qed.
End Init.

(** * A forgery against the code is one in the game of SpecPop.v *)
Definition rs_of {E} (g : G1 E) d cs tb bx adv (z : fcoins) : list N := match sampled g d cs tb bx adv z with Some o => o_rs o | None => [] end.
Lemma nat_pos_head l b e : l = [b] ++ e -> position l b = 0%nat.
Proof. intros ->. cbn [app position]. replace (bytes_eqb b b) with true by (symmetry; apply bytes_eqb_eq; reflexivity). reflexivity. Qed.

Section Main.
Context {E : env} (L : env_laws E) (m : mode) (g : G1 E) (d : nat) (cs tb : N) (bx : bytes) (adv : aforger_for E) (n nb nk nu ls q p : nat).
Context (Hg : g1_insub g = true) (Hd : (1 <= d < 64)%nat) (Hcs : valid_cs cs = true) (Hbx : hash_value bx) (Hls : (32 <= ls)%nat).
Notation x := (scalar_of bx).

(** The code run with the hash functions drawn does what was drawn. *)
Lemma sampled_code z o : fcoins_ok d n nb nk nu ls q p z -> sampled g d cs tb bx adv z = Some o -> clean z o ->
  let '(y, ys, hs, zs, (seed, _, _, _, _)) := z in
  let pp := exp_params g d cs y ys in
  let H := sampled_hash hs (o_tbl o) (o_calls o) in
  let Q := points (o_ptbl o) (map (fun e => g1_mul e g) zs) in
  exists pk sk pop, @key_gen (code_env E H Q) seed (cv_pp pp) = Ok (pk, sk, pop) /\ uv_pk pk = PubKey cs (g2_mul x g2_one)
    /\ code_run H Q m pp sk (adv pp (uv_pk pk) (uv_pop pop)) = Some (o_msg o, o_sig o, o_list o, o_ev o).
Proof.
  destruct z as [[[[y ys] hs] zs] [[[[seed A] B] ks] us]]. intros (Hy & [Hys _] & ([_ Hhs] & _) & _ & [Hse _] & [_ HA] & [_ HB] & [_ Hks] & [_ Hus]) Hs (Hc1 & Hc2 & Hc3).
  pose proof (exp_params_ok L g d cs y ys Hg Hd Hys) as Hpp. cbv zeta. unfold sampled in Hs. set (pp := exp_params g d cs y ys) in *. set (pts := map (fun e => g1_mul e g) zs) in *. set (pk := PubKey cs (g2_mul x g2_one)) in *.
  destruct (s_init cs pk seed bx A B ks us) as [[w cl]|] eqn:Hi; [|discriminate Hs]. apply add_some in Hs as (o' & Hs & He). rewrite He in *. cbn [o_msg o_sig o_list o_tbl o_ptbl o_ev o_calls app] in *.
  set (ho := Outcome (o_msg o') (o_sig o') (o_list o') (o_tbl o') (o_ptbl o') (o_ev o') (cl ++ o_calls o') (o_rs o')) in *.
  set (H := sampled_hash hs (o_tbl o') (cl ++ o_calls o')). set (Q := points (o_ptbl o') pts).
  destruct (init_values pp seed bx A B ks us w cl pk Hi Hbx HA HB Hks Hus) as [V1 So].
  pose proof (s_run_values pp x tb hs pts _ _ _ Hs So) as V2.
  assert (HH : forall b, length (H b) = 64%nat /\ are_bytes (H b)) by (intros b; apply (sampled_value hs (o_tbl o') (cl ++ o_calls o') b Hhs), Forall_app; split; assumption).
  assert (HQ : forall msg c, g1_insub (Q msg c) = true) by (intros msg c; apply (points_insub L), Hg).
  pose proof (sampled_agree hs (o_tbl o') _ Hc1) as Hag. fold H in Hag. apply agree_app in Hag as [Ag1 Ag2].
  destruct (init_code L pp Hpp Hcs H Q m HH HQ seed bx A B ks us w cl pk Hi ltac:(lia) Ag1 Hc3) as [Hkg Hre].
  do 3 eexists. split; [exact Hkg|]. split; [reflexivity|].
  pose proof (run_code L pp Hpp eq_refl Hcs x H Q m HH HQ tb hs pts _ w o' Hs Hre) as Hrun.
  assert (Hans : answers H Q hs pts o').
  { exact (sampled_answers hs pts ho Hc2). }
  specialize (Hrun Hans Ag2). rewrite <- Hrun. f_equal. f_equal. unfold uv_pop. cbn [pop_cs pop_pop].
  destruct (init_ok pp Hpp seed bx A B ks us w cl pk Hi) as (_ & _ & _ & Hptbl & _).
  destruct (s_run_grows pp x tb hs pts _ _ _ Hs) as [_ [e Hgr]]. rewrite Hptbl in Hgr.
  assert (Hpt : Q (@pop_msg E (g2_mul x g2_one)) [cs] = nth 0 pts g1_zero).
  { unfold Q, points. f_equal. exact (nat_pos_head _ _ e Hgr). }
  change (@Pop E cs (g1_mul x (Q (@pop_msg E (g2_mul x g2_one)) [cs])) = Pop cs (g1_mul x (nth 0 pts g1_zero))). rewrite Hpt. reflexivity.
Qed.

Lemma fwins_pwins z : fcoins_ok d n nb nk nu ls q p z -> fwins m g d cs tb bx adv z ->
  let '(y, ys, hs, zs, (seed, A, B, ks, us)) := z in
  pwins m g d cs x (reduced tb (B, ks, us) adv) (y, ys, rs_of g d cs tb bx adv z, hs, zs) /\ scalars n (rs_of g d cs tb bx adv z)
  /\ tb <> 1 /\ sampled g d cs tb bx adv z <> None.
Proof.
  intros Hok Hw. pose proof (fun o => sampled_code z o Hok) as Hcode. unfold rs_of.
  destruct z as [[[[y ys] hs] zs] [[[[seed A] B] ks] us]]. destruct Hw as (o & Hs & Hcl & (pk' & sk' & pop' & msg & s & l & ev & Hkg & Hrun & Hin & Hlen & Hns & Hbr & Hval & Hver)).
  specialize (Hcode o Hs Hcl). cbv zeta in Hcode. rewrite Hs. cbn [app].
  destruct Hcode as (pk1 & sk1 & pop1 & Hkg1 & Hpk1 & Hrun1). rewrite Hkg in Hkg1. injection Hkg1 as <- <- <-. rewrite Hrun in Hrun1. injection Hrun1 as -> -> -> ->.
  rewrite Hpk1 in Hin. clear Hrun Hkg.
  destruct Hok as (Hy & [Hys Hys'] & ([Hq Hhs] & Hnd) & [Hp Hzs] & [Hse _] & [HnA HA] & [HnB HB] & [Hnk Hks] & [Hnu Hus]).
  pose proof (exp_params_ok L g d cs y ys Hg Hd Hys) as Hpp. unfold sampled in Hs. set (pp := exp_params g d cs y ys) in *. set (pts := map (fun e => g1_mul e g) zs) in *. set (pk := PubKey cs (g2_mul x g2_one)) in *.
  destruct (s_init cs pk seed bx A B ks us) as [[w cl]|] eqn:Hi; [|discriminate Hs]. apply add_some in Hs as (o' & Hs & He). rewrite He in *. cbn [o_msg o_sig o_list o_tbl o_ptbl o_ev o_calls o_rs app] in *.
  destruct (init_ok pp Hpp seed bx A B ks us w cl pk Hi) as (Wok & Wt & Wtr & Wp & Wtb & Wc & Wo & Ww & Wg & WB & Wk & Wu).
  pose proof (s_run_end pp x tb hs pts _ _ _ Hs) as Hend. destruct Hcl as (_ & Hc2 & _). cbn [o_calls o_tbl] in Hc2.
  rewrite (verify_cv_re _ _ (table (o_tbl o') hs)) in Hver by (apply sampled_table; intros Hi'; exact (Hc2 _ Hi' Hend)).
  pose proof (verify_range (E := E) _ _ _ pp _ _ ltac:(cbn [pp exp_params pp_depth]; lia) Hver) as Hrg. change (pp_depth pp) with d in Hrg.
  assert (Htb : tb <> 1) by (intros ->; cbn in Hbr; lia).
  destruct (s_run_sim L pp Hpp x tb hs pts _ _ _ Wok Hs) as [_ Hsim]. destruct (Hsim []) as (qs & Hplay & Hqs). rewrite app_nil_r in Hplay.
  assert (Hcopy : copy_of pp x tb w = Copy 1 [] [] (nth 2 ks []) B (skipn 3 ks) (skipn 5 us) []).
  { unfold copy_of. rewrite Wt, Wc, Wg, WB, Wk, Wu. replace (1 =? tb) with false by lia. reflexivity. }
  rewrite Hcopy, Wtb, Wp in Hplay.
  split; [|split; [|split; [exact Htb|discriminate]]].
  - exists (o_msg o'), (o_sig o'), (o_list o'), (o_tbl o'), (o_ptbl o'), qs.
    split; [exact Hplay|]. split; [exact Hin|]. split; [exact Hlen|]. split; [|split; [intros _; exact Hval|exact Hver]].
    apply forallb_forall. intros a Ha. rewrite Forall_forall in Hqs. specialize (Hqs a Ha). destruct a as [t|t mm]; cbn [question_ok hfresh] in *.
    + destruct Hqs as [Htb0 Hco]. replace (tb =? 0) with false in Hbr by lia. destruct Hbr as [Hbr Hlt].
      (* the time of the break-in is in the tree *)
      destruct (N.le_gt_cases tb (last_time d)) as [Hle|Hgt].
      * pose proof (cover_tiling d tb ltac:(lia) ltac:(lia)) as Htil. pose proof (tiling_ge _ _ _ Htil) as Hge. pose proof (tiling_nodes _ _ _ Htil) as Hno. rewrite Forall_forall in Hge, Hno. specialize (Hge t Hco). specialize (Hno t Hco).
        pose proof (later_allowed d (sig_time (o_sig o')) t ltac:(lia) ltac:(lia)) as Hal. unfold key_allowed in Hal. apply andb_true_iff in Hal as [_ Hal]. exact Hal.
      * exfalso. change (pp_depth pp) with d in Hco. unfold cover in Hco. destruct (tv_init Debug tb d) as [tv| |] eqn:Htv; [|destruct Hco|destruct Hco]. apply tv_init_node in Htv as [_ Hn]; [|lia]. apply node_at_range in Hn. lia.
    + destruct (N.eqb_spec t (sig_time (o_sig o'))) as [->|]; [|reflexivity]. destruct (bytes_eqb mm (o_msg o')) eqn:Qm; [|reflexivity]. apply bytes_eqb_eq in Qm. subst mm. exfalso. exact (Hns Hqs).
  - destruct (s_run_scalars pp Hpp x tb hs pts _ _ _ Wok Hs) as [_ Hsc]; [rewrite Wtr; constructor|]. rewrite Ww, HnA in Hsc. apply Hsc. lia.
Qed.
End Main.

(** * The scalars and the rest of the coins determine the coins *)
Definition quotient (b : bytes) : N := os2ip b / fr_modulus.
Lemma quotient_lt b : hash_value b -> quotient b < 256 ^ 64 / fr_modulus + 1.
Proof.
  intros Hb. apply hash_lt in Hb. unfold quotient. assert (os2ip b / fr_modulus <= H_ALL / fr_modulus) by (apply N.div_le_mono; [discriminate|lia]). unfold H_ALL in *. lia.
Qed.
Lemma block_inj a b : hash_value a -> hash_value b -> scalar_of a = scalar_of b -> quotient a = quotient b -> a = b.
Proof.
  intros Ha Hb Hs Hq. apply hash_inj; auto. unfold quotient, scalar_of in *. rewrite (N.div_mod (os2ip a) fr_modulus), (N.div_mod (os2ip b) fr_modulus), Hs, Hq by discriminate. reflexivity.
Qed.
Lemma blocks_inj : forall l l', Forall hash_value l -> Forall hash_value l' -> map scalar_of l = map scalar_of l' -> map quotient l = map quotient l' -> l = l'.
Proof.
  induction l as [|a l IH]; intros [|b l'] Hl Hl' Hs Hq; try discriminate Hs; [reflexivity|]. cbn [map] in *.
  assert (S1 := f_equal (hd 0) Hs). assert (S2 := f_equal (@tl N) Hs). assert (Q1 := f_equal (hd 0) Hq). assert (Q2 := f_equal (@tl N) Hq). cbn [hd tl] in *.
  f_equal; [exact (block_inj _ _ (Forall_inv Hl) (Forall_inv Hl') S1 Q1)|exact (IH _ (Forall_inv_tail Hl) (Forall_inv_tail Hl') S2 Q2)].
Qed.
Lemma sampled_inj {E} (L : env_laws E) (g : G1 E) d cs tb bx adv n y ys hs zs seed A A' B ks us :
  g1_insub g = true -> (1 <= d < 64)%nat -> length ys = (d + 1)%nat -> tb <> 1 -> blocks n A -> blocks n A' ->
  let z := (y, ys, hs, zs, (seed, A, B, ks, us)) in let z' := (y, ys, hs, zs, (seed, A', B, ks, us)) in
  sampled g d cs tb bx adv z <> None -> sampled g d cs tb bx adv z' <> None -> rs_of g d cs tb bx adv z = rs_of g d cs tb bx adv z' -> map quotient A = map quotient A' -> A = A'.
Proof.
  intros Hg Hd Hys Htb [HlA HA] [HlA' HA']. cbv zeta. unfold rs_of, sampled. pose proof (exp_params_ok L g d cs y ys Hg Hd Hys) as Hpp. set (pp := exp_params g d cs y ys) in *. set (pts := map (fun e => g1_mul e g) zs). set (pk := PubKey cs _).
  destruct (s_init cs pk seed bx A B ks us) as [[w cl]|] eqn:Hi; [|intros H; exfalso; exact (H eq_refl)].
  destruct (s_init cs pk seed bx A' B ks us) as [[w' cl']|] eqn:Hi'; [|intros _ H; exfalso; exact (H eq_refl)].
  destruct (s_run pp (scalar_of bx) tb hs pts w _) as [o|] eqn:Hr; [|intros H; exfalso; exact (H eq_refl)].
  destruct (s_run pp (scalar_of bx) tb hs pts w' _) as [o'|] eqn:Hr'; [|intros _ H; exfalso; exact (H eq_refl)].
  intros _ _. cbn [add o_rs app]. intros Hrs Hq.
  destruct (init_ok pp Hpp seed bx A B ks us w cl pk Hi) as (Wok & Wt & Wtr & Wp & Wtb & Wc & Wo & Ww & Wg & WB & Wk & Wu).
  destruct (init_ok pp Hpp seed bx A' B ks us w' cl' pk Hi') as (Wok' & Wt' & Wtr' & Wp' & Wtb' & Wc' & Wo' & Ww' & Wg' & WB' & Wk' & Wu').
  assert (Hf : exists b A0, A = b :: A0 /\ w_rho w = [(1, scalar_of b)] /\ w_A w = A0).
  { unfold s_init in Hi. destruct A as [|b A]; [discriminate|]. destruct ks as [|s0 [|s1 [|s2 ks]]]; try discriminate. destruct us as [|u0 [|u1 [|u2 [|u3 [|u4 us]]]]]; try discriminate.
    apply some_pair in Hi as [-> _]. exists b, A. auto. }
  assert (Hf' : exists b A0, A' = b :: A0 /\ w_rho w' = [(1, scalar_of b)] /\ w_A w' = A0).
  { unfold s_init in Hi'. destruct A' as [|b A']; [discriminate|]. destruct ks as [|s0 [|s1 [|s2 ks]]]; try discriminate. destruct us as [|u0 [|u1 [|u2 [|u3 [|u4 us]]]]]; try discriminate.
    apply some_pair in Hi' as [-> _]. exists b, A'. auto. }
  destruct Hf as (b & A0 & EA & Er & Ea). destruct Hf' as (b' & A0' & EA' & Er' & Ea').
  assert (Hsa : same w w').
  { constructor; try congruence; [rewrite Er, Er'; reflexivity|]. rewrite Ea, Ea'. rewrite EA in HlA. rewrite EA' in HlA'. cbn [length] in *. lia. }
  destruct (s_run_inj pp Hpp (scalar_of bx) tb hs pts _ w w' o o' Wok Wok' Hsa ltac:(lia) Hr Hr' Hrs) as (Q1 & _ & Q3).
  apply blocks_inj; [exact HA|exact HA'| |exact Hq]. rewrite EA, EA'. rewrite Er, Er' in Q1. rewrite Ea, Ea' in Q3. cbn [map snd] in *. apply (f_equal (hd 0)) in Q1. cbn [hd] in Q1. congruence.
Qed.

(** C103: forward security of the code. *)
Lemma code_forger_solves : forall (E : env) (L : env_laws E) m (g : G1 E) d cs tb bx b adv n nb nk nu ls q p ws,
  g1_insub g = true -> (1 <= d < 64)%nat -> (cs = 0 \/ cs = 1) -> (length bx = 64%nat /\ are_bytes bx) -> (32 <= ls)%nat -> (1 <= q)%nat ->
  NoDup ws -> Forall (fun z => fcoins_ok d n nb nk nu ls q p z /\ fwins m g d cs tb bx adv z) ws ->
  exists tx i zs, 1 <= tx <= last_time d /\ (i < q)%nat
    /\ N.of_nat (length ws) <= last_time d * N.of_nat q * N.of_nat (length zs) /\ NoDup zs
    /\ Forall (fun z => scoins_ok d n nb nk nu ls q p z
                        /\ fsolve (challenge_for g d (scalar_of bx) b) d cs tx i tb adv z = Some (solution g d (scalar_of bx) b)) zs.
Proof.
  intros E L m g d cs tb bx b adv n nb nk nu ls q p ws Hg Hd Hcs0 Hbx Hls Hq Hn Hf. destruct (dlog_exists L) as [dl Hdl].
  assert (Hcs : valid_cs cs = true) by (apply valid_cs_iff; exact Hcs0). set (a := scalar_of bx).
  set (S := (list N * (bytes * seen * list N))%type).
  set (T := fun z : fcoins => (let '(y, ys, hs, zs, (seed, A, B, ks, us)) := z in (y, ys, rs_of g d cs tb bx adv z, hs, (to_rho y zs, (seed, (B, ks, us), map quotient A)))) : hcoins * S).
  set (OK := fun s : S => (let '(rho, (seed, (B, ks, us), ds)) := s in (length rho = p /\ Forall (fun e => 0 < e < fr_modulus) rho) /\ (length seed = ls /\ are_bytes seed)
    /\ blocks nb B /\ blocks nk ks /\ blocks nu us /\ length ds = n /\ Forall (fun k => k < 256 ^ 64 / fr_modulus + 1) ds)).
  set (fam := fun s : S => family dl g cs a (reduced tb (snd (fst (snd s))) adv) (fst s)).
  pose proof (fun z Hok => fwins_pwins L m g d cs tb bx adv n nb nk nu ls q p Hg Hd Hcs Hbx Hls z Hok) as Hpw.
  destruct (family_solves OK E L m g d cs a b fam n q (map T ws) Hg Hd Hq) as (tx & i & zs & Htx & Hi & Hl & Hnd & Hz).
  - clear - Hn Hf Hpw L Hg Hd. induction Hn as [|z ws Hz Hn IH]; [constructor|]. inversion Hf as [|? ? Fz0 Fws]; subst. cbn [map]. constructor; [|exact (IH Fws)].
    intros Hin. apply in_map_iff in Hin as (z' & He & Hin). apply Hz. replace z with z'; [exact Hin|].
    rewrite Forall_forall in Fws. destruct (Fws z' Hin) as [Hok' Hw']. destruct Fz0 as [Hok Hw]. pose proof (Hpw z Hok Hw) as P. pose proof (Hpw z' Hok' Hw') as P'.
    destruct z as [[[[y ys] hs] zs] [[[[seed A] B] ks] us]], z' as [[[[y' ys'] hs'] zs'] [[[[seed' A'] B'] ks'] us']]. destruct P as (_ & _ & Htb & Hs). destruct P' as (_ & _ & _ & Hs').
    destruct Hok as (Hy & [Hys _] & _ & [_ Hzs] & _ & HA & _). destruct Hok' as (_ & _ & _ & [_ Hzs'] & _ & HA' & _). unfold T in He.
    remember (rs_of g d cs tb bx adv (y, ys, hs, zs, (seed, A, B, ks, us))) as R eqn:ER. remember (rs_of g d cs tb bx adv (y', ys', hs', zs', (seed', A', B', ks', us'))) as R' eqn:ER'.
    remember (map quotient A) as qA eqn:EqA. remember (map quotient A') as qA' eqn:EqA'.
    injection He as -> -> He1 -> He2 -> -> -> -> He3.
    apply to_rho_inj in He2; [|rewrite N.mod_small; lia|exact Hzs'|exact Hzs]. subst zs'.
    assert (A' = A) as ->; [|reflexivity]. symmetry. apply (sampled_inj L g d cs tb bx adv n y ys hs zs seed A A' B ks us Hg Hd Hys Htb HA HA'); auto; congruence.
  - apply Forall_map. eapply Forall_impl; [|exact Hf]. intros z [Hok Hw]. pose proof (Hpw z Hok Hw) as P.
    destruct z as [[[[y ys] hs] zs] [[[[seed A] B] ks] us]]. destruct P as (P & Hsc & _). destruct Hok as (Hy & Hys & ([Hlq Hhs] & Hnd) & [Hlp Hzs] & Hse & [HlA HA] & HB & Hks & Hus).
    assert (Hy' : y mod fr_modulus <> 0) by (rewrite N.mod_small; lia).
    unfold T. cbn [fst snd]. split; [|split].
    + split; [split; [lia|split; [exact Hys|exact Hsc]]|]. split; [exact Hlq|]. split; [exact Hhs|exact Hnd].
    + unfold OK. split; [split; [rewrite to_rho_length; exact Hlp|exact (to_rho_ok y zs Hy' Hzs)]|]. split; [exact Hse|]. split; [exact HB|]. split; [exact Hks|]. split; [exact Hus|].
      split; [rewrite map_length; exact HlA|]. apply Forall_map. eapply Forall_impl; [|exact HA]. intros c Hc. exact (quotient_lt c Hc).
    + exact (pwins_family L dl m g d cs a _ y ys _ hs zs Hdl Hg Hy' P).
  - exists tx, i, (map (fun z : hcoins * S => (fst z, fst (snd z), snd (snd z)) : scoins) zs). rewrite !map_length in *. split; [exact Htx|]. split; [exact Hi|]. split; [exact Hl|]. split.
    + apply FinFun.Injective_map_NoDup; [|exact Hnd]. intros [c1 [r1 s1]] [c2 [r2 s2]] He. cbn [fst snd] in He. injection He as -> -> ->. reflexivity.
    + apply Forall_map. eapply Forall_impl; [|exact Hz]. intros [[[[c cl] rs] hs] [rho [[seed [[B ks] us]] ds]]] (H1 & H2 & H4). cbn [fst snd] in *.
      destruct H2 as ((H2 & H3) & H5 & H6 & H7 & H8 & H9). split.
      * split; [split; [exact H1|split; assumption]|]. split; [exact H5|]. split; [exact H6|]. split; [exact H7|]. split; [exact H8|exact H9].
      * unfold fsolve. etransitivity; [exact (psolve_family L dl g d cs a b tx i _ c cl rs hs rho Hdl Hg Hd H3)|exact H4].
Qed.

(** The game with values drawn is the game with the code. *)
Lemma drawn_is_code : forall (E : env) (L : env_laws E) m (g : G1 E) d cs tb bx adv n nb nk nu ls q p y ys hs zs seed A B ks us o,
  g1_insub g = true -> (1 <= d < 64)%nat -> (cs = 0 \/ cs = 1) -> (length bx = 64%nat /\ are_bytes bx) -> (32 <= ls)%nat ->
  fcoins_ok d n nb nk nu ls q p (y, ys, hs, zs, (seed, A, B, ks, us)) ->
  sampled g d cs tb bx adv (y, ys, hs, zs, (seed, A, B, ks, us)) = Some o -> clean (y, ys, hs, zs, (seed, A, B, ks, us)) o ->
  let pp := exp_params g d cs y ys in
  let H := sampled_hash hs (o_tbl o) (o_calls o) in
  let Q := points (o_ptbl o) (map (fun e => g1_mul e g) zs) in
  exists pk sk pop, @key_gen (code_env E H Q) seed (cv_pp pp) = Ok (pk, sk, pop)
    /\ uv_pk pk = PubKey cs (g2_mul (scalar_of bx) g2_one)
    /\ code_run H Q m pp sk (adv pp (uv_pk pk) (uv_pop pop)) = Some (o_msg o, o_sig o, o_list o, o_ev o).
Proof.
  intros E L m g d cs tb bx adv n nb nk nu ls q p y ys hs zs seed A B ks us o Hg Hd Hcs Hbx Hls Hok Hs Hc.
  exact (sampled_code L m g d cs tb bx adv n nb nk nu ls q p Hg Hd (proj2 (valid_cs_iff cs) Hcs) Hbx Hls _ o Hok Hs Hc).
Qed.
