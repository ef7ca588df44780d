(** Lemmas behind Properties_Fwd.v: the scalars the signer uses determine those drawn. *)
From Coq Require Import ZArith Sorting.Sorted ZifyBool ZifyN ZifyNat.
From Verif Require Import Base Env NMod GroupFacts SpecTime Time TimeFacts Hkdf Prng SpecPrng PrngFacts SubKey SecretKey Keys Sig SpecKey SpecUpdate
  SubKeyFacts UpdateFacts KeyFacts HistoryFacts SpecAgg
  SpecRed SpecMulti SpecRom SpecPop SpecFwd KeyProps VerProps AggProps LinProps RedProps RandProps MultiProps RomProps PopProps CountProps PopCountProps FwdProps.
Local Open Scope N_scope.
Local Arguments N.add : simpl never.
Local Arguments N.mul : simpl never.
Local Arguments N.sub : simpl never.
Local Arguments N.modulo : simpl never.
Local Arguments pow2 : simpl never.

(** All values of calls are drawn ones. *)
Definition values (cl : list (bytes * bytes)) : Prop := Forall (fun p => hash_value (snd p)) cl.
Lemma values_calls k t u o : hash_value u -> hash_value o -> values (calls k t u o).
Proof. intros Hu Ho. apply Forall_cons; [exact Hu|]. apply Forall_cons; [exact Ho|]. apply Forall_nil. Qed.
Lemma draw_keys_values r : forall fr g A ks us l g' A' ks' us' cl, draw_keys r fr g A ks us = Some (l, g', A', ks', us', cl) ->
  Forall hash_value A -> Forall hash_value ks -> Forall hash_value us ->
  values cl /\ Forall hash_value A' /\ Forall hash_value ks' /\ Forall hash_value us'.
Proof.
  induction fr as [|t fr IH]; intros g A ks us l g' A' ks' us' cl H HA Hk Hu; cbn [draw_keys] in H; [inversion H; subst; repeat split; auto; constructor|].
  destruct A as [|b A], ks as [|g1 ks], us as [|u1 [|u2 us]]; try discriminate H.
  destruct (draw_keys r fr g1 A ks us) as [[[[[[l0 g0] A0] ks0] us0] cl0]|] eqn:Hd; [|discriminate H]. apply some_inj in H.
  inversion HA as [|? ? HA1 HA2]; inversion Hk as [|? ? Hk1 Hk2]; inversion Hu as [|? ? Hu1 Hu2]; inversion Hu2 as [|? ? Hu3 Hu4]; subst.
  destruct (IH _ _ _ _ _ _ _ _ _ _ Hd HA2 Hk2 Hu4) as (I1 & I2 & I3 & I4).
  assert (A' = A0 /\ ks' = ks0 /\ us' = us0) as (-> & -> & ->) by (repeat split; congruence).
  assert (cl = calls g (DOM_SEP_SK_UPDATE ++ [1]) u1 b ++ calls g (b ++ DOM_SEP_SK_UPDATE ++ [2]) u2 g1 ++ cl0) as -> by congruence.
  split; [|auto]. apply Forall_app. split; [apply values_calls; assumption|]. apply Forall_app. split; [apply values_calls; assumption|exact I1].
Qed.
Record streams_ok {E} (w : world E) : Prop := StreamsOk {
  so_A : Forall hash_value (w_A w); so_B : Forall hash_value (w_B w); so_ks : Forall hash_value (w_ks w); so_us : Forall hash_value (w_us w) }.
Section Game.
Context {E : env} (pp : pubparam E) (Hpp : pp_ok pp) (x tb : N) (hs : list bytes) (pts : list (G1 E)).
Notation d := (pp_depth pp).
Lemma s_update_values w t seed w' cl : s_update pp w t seed = Some (w', cl) -> streams_ok w -> values cl /\ streams_ok w'.
Proof.
  intros H [HA HB Hk Hu]. unfold s_update in H. destruct (w_ks w) as [|k2 [|g0 ks]]; [discriminate|discriminate|]. destruct (w_us w) as [|u1 [|v [|u2 [|u3 us]]]]; try discriminate.
  inversion Hk as [|? ? Hk1 Hk']; inversion Hk' as [|? ? Hk2 Hk'']; subst. inversion Hu as [|? ? Hu1 U1]; inversion U1 as [|? ? Hu2 U2]; inversion U2 as [|? ? Hu3 U3]; inversion U3 as [|? ? Hu4 U4]; subst.
  assert (V : values (calls (w_g w) ((DOM_SEP_SK_RERANDOMIZE_INFO ++ time_bytes (w_time w)) ++ [1]) u1 v
     ++ calls (w_g w) (v ++ (DOM_SEP_SK_RERANDOMIZE_INFO ++ time_bytes (w_time w)) ++ [2]) u2 k2 ++ calls k2 (v ++ seed) u3 g0)).
  { apply Forall_app. split; [apply values_calls; assumption|]. apply Forall_app. split; apply values_calls; assumption. }
  destruct (made d (w_time w) t) as [|t0 ts]; [apply some_pair in H as [-> ->]; split; [exact V|constructor; assumption]|].
  destruct (draw_keys _ _ _ _ _ _) as [[[[[[l g'] A'] ks'] us'] cl']|] eqn:Hd; [|discriminate]. apply some_pair in H as [-> ->].
  destruct (draw_keys_values _ _ _ _ _ _ _ _ _ _ _ _ Hd HA Hk'' U4) as (I1 & I2 & I3 & I4).
  split; [apply Forall_app; split; assumption|constructor; assumption].
Qed.
Lemma s_run_values : forall f w o, s_run pp x tb hs pts w f = Some o -> streams_ok w -> values (o_calls o).
Proof.
  induction f as [msg s l|k|t seed k IH|t msg k IH|b k IH|msg cs k IH]; intros w o H Hs; cbn [s_run] in H.
  - destruct (tb =? 0); [|discriminate H]. apply add_some in H as (o' & H & ->). apply s_end_some in H as (_ & _ & ->). constructor.
  - destruct (negb (tb =? 0) && _); [|discriminate H]. apply add_some in H as (o' & H & ->). destruct (s_tail_grows _ _ _ _ _ _ H) as (_ & _ & Hc & _). cbn [o_calls app]. rewrite Hc. constructor.
  - destruct (_ && _); [|exact (IH _ _ _ H Hs)]. destruct (_ || _); [|discriminate H].
    destruct (s_update pp w t seed) as [[w' cl]|] eqn:Hu; [|discriminate H]. apply add_some in H as (o' & H & ->).
    destruct (s_update_values _ _ _ _ _ Hu Hs) as [V Hs']. cbn [o_calls]. apply Forall_app. split; [exact V|exact (IH _ _ _ H Hs')].
  - destruct (negb _); [exact (IH _ _ _ H Hs)|]. destruct (lookup _ msg) as [s|]; [apply add_some in H as (o' & H & ->); exact (IH _ _ _ H Hs)|]. cbv zeta in H.
    destruct (nth_error _ _) as [h|]; [|discriminate H]. destruct Hs as [HA HB Hk Hu]. destruct (w_us w) as [|u us]; [discriminate H|]. inversion Hu as [|? ? Hu1 Hu2]; subst.
    destruct (t =? tb) eqn:Q.
    + destruct (w_B w) as [|blk rest] eqn:EB; [discriminate H|]. inversion HB as [|? ? HB1 HB2]; subst. apply add_some in H as (o' & H & ->). cbn [o_calls]. apply Forall_app. split; [apply values_calls; assumption|].
      apply (IH _ _ _ H). constructor; assumption.
    + destruct (w_A w) as [|blk rest] eqn:EA; [discriminate H|]. inversion HA as [|? ? HA1 HA2]; subst. apply add_some in H as (o' & H & ->). cbn [o_calls]. apply Forall_app. split; [apply values_calls; assumption|].
      apply (IH _ _ _ H). constructor; assumption.
  - destruct (nth_error _ _) as [h|]; [|discriminate H]. apply (IH _ _ _ H). destruct Hs; constructor; assumption.
  - cbv zeta in H. destruct (nth_error _ _) as [p|]; [|discriminate H]. apply (IH _ _ _ H). destruct Hs; constructor; assumption.
Qed.

(** The number of scalars. *)
Definition weight (w : world E) : nat := (length (w_rho w) + length (w_trash w) + length (w_A w))%nat.
Lemma s_update_weight w t seed w' cl : world_ok pp w -> w_time w < t <= last_time d -> s_update pp w t seed = Some (w', cl) ->
  weight w' = weight w /\ (Forall (fun r => r < fr_modulus) (w_trash w) -> Forall (fun r => r < fr_modulus) (w_trash w')).
Proof.
  intros Hw Ht Hu. destruct (parts_exist pp _ _ _ t Hpp eq_refl (wo_rho pp w Hw) (proj1 (wo_time pp w Hw)) Ht) as (pre & ta & r & post & fr & Hp).
  destruct (s_update_form pp w t seed w' cl _ _ _ _ _ Hp Hu) as (k2 & g0 & ks & u1 & v & u2 & u3 & us & l & g' & A' & ks' & us' & cl' & Hks & Hus & Hd & -> & _).
  pose proof (draw_keys_length _ _ _ _ _ _ _ _ _ _ _ _ Hd) as Hl. unfold weight. cbn [w_rho w_trash w_A length]. rewrite (pa_rho _ _ _ _ _ _ _ _ _ Hp), !app_length, map_length. cbn [length].
  split; [lia|]. intros Htr. apply Forall_app. split; [|exact Htr]. pose proof (wo_small pp w Hw) as Hs. rewrite (pa_rho _ _ _ _ _ _ _ _ _ Hp) in Hs. apply Forall_app in Hs as [Hs _]. apply Forall_map. exact Hs.
Qed.
Lemma scalar_lt b : scalar_of b < fr_modulus.
Proof. apply mod_small. Qed.
Lemma s_rest_ok w : world_ok pp w -> Forall (fun r => r < fr_modulus) (w_trash w) -> scalars (weight w) (s_rest w).
Proof.
  intros Hw Ht. unfold s_rest, scalars, weight. split; [rewrite !app_length, !map_length; lia|]. apply Forall_app. split; [apply Forall_map; exact (wo_small pp w Hw)|].
  apply Forall_app. split; [exact Ht|]. apply Forall_map, Forall_forall. intros b _. apply scalar_lt.
Qed.
Lemma s_run_scalars : forall f w o, world_ok pp w -> s_run pp x tb hs pts w f = Some o -> Forall (fun r => r < fr_modulus) (w_trash w) ->
  (w_time w = tb -> o_rs o = []) /\ (w_time w <> tb -> scalars (weight w) (o_rs o)).
Proof.
  induction f as [msg s l|k|t seed k IH|t msg k IH|b k IH|msg cs k IH]; intros w o Hw H Htr; cbn [s_run] in H.
  - pose proof (wo_time pp w Hw). destruct (N.eqb_spec tb 0) as [->|]; [|discriminate H]. apply add_some in H as (o' & H & ->). apply s_end_some in H as (_ & _ & ->). cbn [o_rs]. rewrite app_nil_r.
    split; [lia|]. intros _. exact (s_rest_ok w Hw Htr).
  - destruct (negb (tb =? 0) && _) eqn:Q; [|discriminate H]. apply add_some in H as (o' & H & ->). destruct (s_tail_grows _ _ _ _ _ _ H) as (_ & _ & _ & Hc). cbn [o_rs app]. rewrite Hc. split; [auto|lia].
  - destruct ((w_time w <? t) && _) eqn:Q; [|exact (IH _ _ _ Hw H Htr)]. destruct (_ || _) eqn:Q2; [|discriminate H].
    destruct (s_update pp w t seed) as [[w' cl]|] eqn:Hu; [|discriminate H]. apply add_some in H as (o' & H & ->). cbn [o_rs]. pose proof (wo_time pp w Hw).
    split; [intros; exfalso; lia|]. intros _. destruct (s_update_weight w t seed w' cl Hw ltac:(lia) Hu) as [Hwt Htr']. specialize (Htr' Htr).
    destruct (s_update_ok pp w t seed w' cl Hpp Hw ltac:(lia) Hu) as [Hw' Ht']. destruct (IH _ _ _ Hw' H Htr') as [I1 I2]. rewrite <- Hwt.
    destruct (N.eqb_spec t tb) as [Et|Et]; [rewrite (I1 ltac:(lia)), app_nil_r; exact (s_rest_ok w' Hw' Htr')|]. cbn [app]. apply I2. lia.
  - destruct (N.eqb_spec (w_time w) t) as [Et|Et]; cbn [negb] in H; [|exact (IH _ _ _ Hw H Htr)].
    destruct (lookup _ msg) as [s|]; [apply add_some in H as (o' & H & ->); exact (IH _ _ _ Hw H Htr)|]. cbv zeta in H.
    destruct (nth_error _ _) as [h|]; [|discriminate H]. destruct (w_us w) as [|u us]; [discriminate H|].
    destruct (if t =? tb then w_B w else w_A w) as [|blk rest] eqn:Eb; [discriminate H|]. apply add_some in H as (o' & H & ->). cbn [o_rs].
    match type of H with s_run _ _ _ _ _ ?w0 _ = _ => set (w' := w0) in * end.
    assert (Hw' : world_ok pp w') by (destruct Hw as [O1 O2 O3]; constructor; cbn [w' w_time w_rho]; rewrite <- ?Et; assumption).
    destruct (IH _ _ _ Hw' H Htr) as [I1 I2]. cbn [w' w_time] in I1, I2. destruct (N.eqb_spec t tb) as [Eq|Eq].
    + split; [intros _; exact (I1 Eq)|intros; exfalso; lia].
    + split; [intros; exfalso; lia|]. intros _. specialize (I2 Eq). assert (Hwt : weight w = S (weight w')) by (unfold weight; cbn [w' w_rho w_trash w_A]; rewrite Eb; cbn [length]; lia).
      rewrite Hwt. destruct I2 as [I3 I4]. split; [cbn [app length]; rewrite I3; reflexivity|]. constructor; [apply mod_small|exact I4].
  - destruct (nth_error _ _) as [h|]; [|discriminate H]. apply (IH h (set_tbl w (enter (w_tbl w) b)) o); auto. destruct Hw; constructor; assumption.
  - cbv zeta in H. destruct (nth_error _ _) as [p|]; [|discriminate H]. apply (IH p (set_ptbl w (enter (w_ptbl w) (point_input msg cs))) o); auto. destruct Hw; constructor; assumption.
Qed.

(** Worlds that differ in the scalars only. *)
Record same (w1 w2 : world E) : Prop := Same {
  sa_time : w_time w1 = w_time w2; sa_rho : map fst (w_rho w1) = map fst (w_rho w2); sa_g : w_g w1 = w_g w2; sa_cache : w_cache w1 = w_cache w2;
  sa_A : length (w_A w1) = length (w_A w2); sa_B : w_B w1 = w_B w2; sa_ks : w_ks w1 = w_ks w2; sa_us : w_us w1 = w_us w2;
  sa_trash : length (w_trash w1) = length (w_trash w2); sa_tbl : w_tbl w1 = w_tbl w2; sa_ptbl : w_ptbl w1 = w_ptbl w2 }.
Definition equal (w1 w2 : world E) : Prop :=
  map snd (w_rho w1) = map snd (w_rho w2) /\ w_trash w1 = w_trash w2 /\ map scalar_of (w_A w1) = map scalar_of (w_A w2).
Lemma times_split t (pre : list N) a post pre' a' post' :
  Forall (fun s => s < a) pre -> a <= t -> Forall (fun s => t < s) post -> Forall (fun s => s < a') pre' -> a' <= t -> Forall (fun s => t < s) post' ->
  pre ++ a :: post = pre' ++ a' :: post' -> pre = pre' /\ a = a' /\ post = post'.
Proof.
  intros H1 H2 H3 H1' H2' H3' He. set (f := fun s => s <=? t).
  assert (F : forall p b q, Forall (fun s => s < b) p -> b <= t -> Forall (fun s => t < s) q -> filter f (p ++ b :: q) = p ++ [b] /\ filter (fun s => negb (f s)) (p ++ b :: q) = q).
  { unfold f. intros p b q F1 F2 F3. rewrite !filter_app. cbn [filter]. replace (b <=? t) with true by lia. cbn [negb].
    rewrite (filter_all (fun s => s <=? t) p), (filter_none (fun s => s <=? t) q), (filter_none (fun s => negb (s <=? t)) p), (filter_all (fun s => negb (s <=? t)) q); [auto| | | |];
      eapply Forall_impl; try eassumption; cbv beta; intros; lia. }
  destruct (F _ _ _ H1 H2 H3) as [A1 A2]. destruct (F _ _ _ H1' H2' H3') as [B1 B2]. rewrite He in A1, A2. rewrite B1 in A1. rewrite B2 in A2.
  apply app_inj_tail in A1 as [-> ->]. auto.
Qed.
Lemma add_mod_inj r a b : a < fr_modulus -> b < fr_modulus -> (r + a) mod fr_modulus = (r + b) mod fr_modulus -> a = b.
Proof.
  intros Ha Hb He. pose proof (N.div_mod (r + a) fr_modulus ltac:(discriminate)) as D1. pose proof (N.div_mod (r + b) fr_modulus ltac:(discriminate)) as D2. rewrite He in D1.
  revert Ha Hb D1 D2. generalize ((r + b) mod fr_modulus) ((r + a) / fr_modulus) ((r + b) / fr_modulus). assert (Hp : 0 < fr_modulus) by reflexivity. revert Hp. generalize fr_modulus. intros p Hp c q1 q2 Ha Hb D1 D2.
  assert (q1 = q2); [|nia]. destruct (N.lt_trichotomy q1 q2) as [Hl|[Hl|Hl]]; [exfalso; nia|exact Hl|exfalso; nia].
Qed.
Lemma draw_keys_inj r : forall fr g ks us A1 A2 l1 l2 g1 g2 A1' A2' ks1 ks2 us1 us2 c1 c2,
  draw_keys r fr g A1 ks us = Some (l1, g1, A1', ks1, us1, c1) -> draw_keys r fr g A2 ks us = Some (l2, g2, A2', ks2, us2, c2) ->
  map snd l1 = map snd l2 -> map scalar_of A1' = map scalar_of A2' -> map scalar_of A1 = map scalar_of A2.
Proof.
  induction fr as [|t fr IH]; intros g ks us A1 A2 l1 l2 g1 g2 A1' A2' ks1 ks2 us1 us2 c1 c2 D1 D2 Hl HA; cbn [draw_keys] in D1, D2.
  - apply some_inj in D1. apply some_inj in D2. assert (A1' = A1) by congruence. assert (A2' = A2) by congruence. congruence.
  - destruct A1 as [|b1 A1], ks as [|k ks], us as [|u [|u' us]]; try discriminate D1. destruct A2 as [|b2 A2]; [discriminate D2|].
    destruct (draw_keys r fr k A1 ks us) as [[[[[[m1 ?] B1] ?] ?] ?]|] eqn:E1; [|discriminate D1]. destruct (draw_keys r fr k A2 ks us) as [[[[[[m2 ?] B2] ?] ?] ?]|] eqn:E2; [|discriminate D2].
    apply some_inj in D1. apply some_inj in D2. assert (l1 = (t, (r + scalar_of b1) mod fr_modulus) :: m1) as -> by congruence. assert (l2 = (t, (r + scalar_of b2) mod fr_modulus) :: m2) as -> by congruence.
    assert (A1' = B1) as -> by congruence. assert (A2' = B2) as -> by congruence. clear D1 D2. cbn [map snd] in Hl.
    assert (H1 := f_equal (hd 0) Hl). assert (H2 := f_equal (@tl N) Hl). cbn [hd tl] in H1, H2. cbn [map]. f_equal; [|exact (IH _ _ _ _ _ _ _ _ _ _ _ _ _ _ _ _ _ E1 E2 H2 HA)].
    apply (add_mod_inj r); [apply scalar_lt|apply scalar_lt|exact H1].
Qed.
Lemma s_update_same w1 w2 t seed w1' w2' c1 c2 : world_ok pp w1 -> world_ok pp w2 -> same w1 w2 -> w_time w1 < t <= last_time d ->
  s_update pp w1 t seed = Some (w1', c1) -> s_update pp w2 t seed = Some (w2', c2) ->
  same w1' w2' /\ (equal w1' w2' -> equal w1 w2).
Proof.
  intros Hw1 Hw2 Hsa Ht U1 U2. destruct Hsa as [S1 S2 S3 S4 S5 S6 S7 S8 S9 S10 S11].
  destruct (parts_exist pp _ _ _ t Hpp eq_refl (wo_rho pp w1 Hw1) (proj1 (wo_time pp w1 Hw1)) Ht) as (pre1 & ta1 & r1 & post1 & fr1 & P1).
  destruct (parts_exist pp _ _ _ t Hpp eq_refl (wo_rho pp w2 Hw2) (proj1 (wo_time pp w2 Hw2)) ltac:(lia)) as (pre2 & ta2 & r2 & post2 & fr2 & P2).
  destruct (s_update_form pp w1 t seed w1' c1 _ _ _ _ _ P1 U1) as (k2 & g0 & ks & u1 & v & u2 & u3 & us & l1 & g1 & A1 & ks1 & us1 & cl1 & K1 & V1 & D1 & -> & _).
  destruct (s_update_form pp w2 t seed w2' c2 _ _ _ _ _ P2 U2) as (k2b & g0b & ksb & u1b & vb & u2b & u3b & usb & l2 & g2 & A2 & ks2 & us2 & cl2 & K2 & V2 & D2 & -> & _).
  rewrite <- S7, K1 in K2. rewrite <- S8, V1 in V2. assert (g0b = g0) as -> by congruence. assert (ksb = ks) as -> by congruence. assert (usb = us) as -> by congruence.
  destruct P1 as [R1 T1 F1 G1 C1 _]. destruct P2 as [R2 T2 F2 G2 C2 _].
  assert (Hf := S2). rewrite R1, R2, !map_app in Hf. cbn [map fst] in Hf.
  apply (times_split t) in Hf as (Hpre & -> & Hpost); [|apply Forall_map; assumption|assumption|apply Forall_map; assumption|apply Forall_map; assumption|assumption|apply Forall_map; assumption].
  assert (Hfr : fr1 = fr2). { apply (app_inv_tail (map fst post1)). rewrite C1, Hpost in C2. rewrite Hpost. congruence. } subst fr2.
  destruct (draw_keys_streams _ _ _ _ _ _ _ _ _ _ _ _ D1) as (X1 & X2 & X3 & X4 & _). destruct (draw_keys_streams _ _ _ _ _ _ _ _ _ _ _ _ D2) as (Y1 & Y2 & Y3 & Y4 & _).
  pose proof (draw_keys_times _ _ _ _ _ _ _ _ _ _ _ _ D1) as L1. pose proof (draw_keys_times _ _ _ _ _ _ _ _ _ _ _ _ D2) as L2.
  assert (Lpre : length pre1 = length pre2) by (apply (f_equal (@length N)) in Hpre; rewrite !map_length in Hpre; exact Hpre).
  assert (Lpost : length post1 = length post2) by (apply (f_equal (@length N)) in Hpost; rewrite !map_length in Hpost; exact Hpost).
  assert (Ll : length l1 = length l2) by (rewrite <- L2 in L1; apply (f_equal (@length N)) in L1; rewrite !map_length in L1; exact L1).
  split.
  - constructor; cbn [w_time w_rho w_g w_cache w_A w_B w_ks w_us w_trash w_tbl w_ptbl]; auto; try congruence.
    + cbn [map fst]. rewrite !map_app, L1, L2, Hpost. reflexivity.
    + rewrite X4, Y4, !skipn_length. lia.
    + rewrite !app_length, !map_length. lia.
  - intros (Q1 & Q2 & Q3). cbn [w_rho w_trash w_A map snd] in Q1, Q2, Q3. assert (r1 = r2) as -> by exact (f_equal (hd 0) Q1). apply (f_equal (@tl N)) in Q1. cbn [tl] in Q1. rewrite !map_app in Q1.
    apply app_inv_len in Q1 as [Q1 Q4]; [|rewrite !map_length; exact Ll]. apply app_inv_len in Q2 as [Q2 Q5]; [|rewrite !map_length; exact Lpre].
    split; [rewrite R1, R2, !map_app; cbn [map snd]; congruence|]. split; [exact Q5|].
    exact (draw_keys_inj r2 fr1 _ _ _ _ _ _ _ _ _ _ _ _ _ _ _ _ _ D1 D2 Q1 Q3).
Qed.
Lemma s_rest_inj w1 w2 : same w1 w2 -> s_rest w1 = s_rest w2 -> equal w1 w2.
Proof.
  intros Hs. unfold s_rest. intros H. destruct Hs as [S1 S2 S3 S4 S5 S6 S7 S8 S9 S10 S11]. apply (f_equal (@length N)) in S2. rewrite !map_length in S2.
  apply app_inv_len in H as [H1 H]; [|rewrite !map_length; exact S2]. apply app_inv_len in H as [H2 H3]; [|exact S9]. split; [exact H1|]. auto.
Qed.
Lemma s_run_inj : forall f w1 w2 o1 o2, world_ok pp w1 -> world_ok pp w2 -> same w1 w2 -> w_time w1 <> tb ->
  s_run pp x tb hs pts w1 f = Some o1 -> s_run pp x tb hs pts w2 f = Some o2 -> o_rs o1 = o_rs o2 -> equal w1 w2.
Proof.
  induction f as [msg s l|k|t seed k IH|t msg k IH|b k IH|msg cs k IH]; intros w1 w2 o1 o2 Hw1 Hw2 Hsa Hne R1 R2 Hrs; cbn [s_run] in R1, R2.
  - destruct (tb =? 0); [|discriminate R1]. apply add_some in R1 as (q1 & R1 & ->). apply add_some in R2 as (q2 & R2 & ->). apply s_end_some in R1 as (_ & _ & ->). apply s_end_some in R2 as (_ & _ & ->).
    cbn [o_rs] in Hrs. rewrite !app_nil_r in Hrs. exact (s_rest_inj _ _ Hsa Hrs).
  - destruct (negb (tb =? 0) && (w_time w1 =? tb)) eqn:Q; [lia|discriminate R1].
  - rewrite <- (sa_time _ _ Hsa) in R2. destruct ((w_time w1 <? t) && _) eqn:Q; [|exact (IH _ _ _ _ _ Hw1 Hw2 Hsa Hne R1 R2 Hrs)]. destruct (_ || _) eqn:Q2; [|discriminate R1].
    destruct (s_update pp w1 t seed) as [[w1' c1]|] eqn:U1; [|discriminate R1]. destruct (s_update pp w2 t seed) as [[w2' c2]|] eqn:U2; [|discriminate R2].
    apply add_some in R1 as (q1 & R1 & ->). apply add_some in R2 as (q2 & R2 & ->). cbn [o_rs] in Hrs. pose proof (sa_time _ _ Hsa) as Hti.
    destruct (s_update_ok pp w1 t seed w1' c1 Hpp Hw1 ltac:(lia) U1) as [Hw1' Ht1]. destruct (s_update_ok pp w2 t seed w2' c2 Hpp Hw2 ltac:(lia) U2) as [Hw2' Ht2].
    destruct (s_update_same w1 w2 t seed w1' w2' c1 c2 Hw1 Hw2 Hsa ltac:(lia) U1 U2) as [Hsa' Hback]. apply Hback.
    destruct (N.eqb_spec t tb) as [Et|Et].
    + pose proof (sa_rho _ _ Hsa') as La. apply (f_equal (@length N)) in La. rewrite !map_length in La. pose proof (sa_A _ _ Hsa') as Lb. pose proof (sa_trash _ _ Hsa') as Lc.
      apply (s_rest_inj _ _ Hsa'). apply app_inv_len in Hrs as [Hrs _]; [exact Hrs|]. unfold s_rest. rewrite !app_length, !map_length. lia.
    + cbn [app] in Hrs. apply (IH _ _ _ _ _ Hw1' Hw2' Hsa' ltac:(lia) R1 R2 Hrs).
  - rewrite <- (sa_time _ _ Hsa), <- (sa_cache _ _ Hsa) in R2. destruct (N.eqb_spec (w_time w1) t) as [Et|Et]; cbn [negb] in R1, R2; [|exact (IH _ _ _ _ _ Hw1 Hw2 Hsa Hne R1 R2 Hrs)].
    destruct (lookup (w_cache w1) msg) as [s|].
    { apply add_some in R1 as (q1 & R1 & ->). apply add_some in R2 as (q2 & R2 & ->). exact (IH _ _ _ _ _ Hw1 Hw2 Hsa Hne R1 R2 Hrs). }
    cbv zeta in R1, R2. rewrite <- (sa_tbl _ _ Hsa), <- (sa_us _ _ Hsa) in R2. destruct (nth_error hs _) as [h|]; [|discriminate R1]. destruct (w_us w1) as [|u us]; [discriminate R1|].
    destruct (N.eqb_spec t tb) as [Eq|Eq]; [exfalso; lia|].
    destruct (w_A w1) as [|b1 A1] eqn:EA1; [discriminate R1|]. destruct (w_A w2) as [|b2 A2] eqn:EA2; [discriminate R2|].
    apply add_some in R1 as (q1 & R1 & ->). apply add_some in R2 as (q2 & R2 & ->). cbn [o_rs app] in Hrs.
    assert (Hr := f_equal (hd 0) Hrs). cbn [hd] in Hr. apply (f_equal (@tl N)) in Hrs. cbn [tl] in Hrs. rewrite Hr in R1.
    match type of R1 with s_run _ _ _ _ _ ?w0 _ = _ => set (w1' := w0) in * end. match type of R2 with s_run _ _ _ _ _ ?w0 _ = _ => set (w2' := w0) in * end.
    assert (He : equal w1' w2').
    { refine (IH _ w1' w2' q1 q2 _ _ _ _ R1 R2 Hrs).
      - destruct Hw1 as [O1 O2 O3]; constructor; cbn [w1' w_time w_rho]; rewrite <- ?Et; assumption.
      - destruct Hw2 as [O1 O2 O3]; constructor; cbn [w2' w_time w_rho]; try (rewrite <- Et, (sa_time _ _ Hsa)); assumption.
      - destruct Hsa as [S1 S2 S3 S4 S5 S6 S7 S8 S9 S10 S11]. constructor; cbn [w1' w2' w_time w_rho w_g w_cache w_A w_B w_ks w_us w_trash w_tbl w_ptbl]; auto.
        rewrite EA1, EA2 in S5. cbn [length] in S5. lia.
      - exact Eq. }
    destruct He as (Q1 & Q2 & Q3). cbn [w1' w2' w_rho w_trash w_A] in Q1, Q2, Q3. split; [exact Q1|]. split; [exact Q2|]. rewrite EA1, EA2. cbn [map]. f_equal; [|exact Q3].
    assert (Hh : snd (hd (0, 0) (w_rho w1)) = snd (hd (0, 0) (w_rho w2))).
    { destruct (w_rho w1) as [|p1 l1], (w_rho w2) as [|p2 l2]; try discriminate Q1; [reflexivity|]. cbn [map hd] in *. exact (f_equal (hd 0) Q1). }
    rewrite Hh in Hr. apply (add_mod_inj (snd (hd (0, 0) (w_rho w2)))); [apply scalar_lt|apply scalar_lt|exact Hr].
  - rewrite <- (sa_tbl _ _ Hsa) in R2. destruct (nth_error hs _) as [h|]; [|discriminate R1].
    apply (IH h (set_tbl w1 (enter (w_tbl w1) b)) (set_tbl w2 (enter (w_tbl w1) b)) o1 o2); auto; [destruct Hw1; constructor; assumption|destruct Hw2; constructor; assumption|].
    destruct Hsa; constructor; auto.
  - cbv zeta in R1, R2. rewrite <- (sa_ptbl _ _ Hsa) in R2. destruct (nth_error pts _) as [p|]; [|discriminate R1].
    apply (IH p (set_ptbl w1 (enter (w_ptbl w1) (point_input msg cs))) (set_ptbl w2 (enter (w_ptbl w1) (point_input msg cs))) o1 o2); auto; [destruct Hw1; constructor; assumption|destruct Hw2; constructor; assumption|].
    destruct Hsa; constructor; auto.
Qed.
End Game.
