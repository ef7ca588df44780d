(** The lemmas behind Properties_Clean.v. *)
From Coq Require Import Permutation ListDec.
From Coq Require Import ZifyBool ZifyN ZifyNat.
From Verif Require Import Base Env Time SpecTime Prng SpecPrng PrngFacts SubKey SecretKey Keys Sig SpecKey SpecUpdate SpecAgg
  SpecRed SpecMulti SpecRom SpecPop SpecFwd SpecClean RedProps MultiProps RomProps CountProps PopProps PopCountProps FwdProps FwdCodeProps FwdGameProps FwdMainProps CleanProps CleanCountProps.
Local Open Scope N_scope.
#[local] Opaque hash_values numbers.

Lemma bounded_dec (P : nat -> Prop) : (forall j, {P j} + {~ P j}) -> forall n, {exists j, (j < n)%nat /\ P j} + {forall j, (j < n)%nat -> ~ P j}.
Proof.
  intros D. induction n as [|n [IH|IH]]; [right; intros j Hj; lia|left; destruct IH as (j & H1 & H2); exists j; split; [lia|exact H2]|].
  destruct (D n) as [H|H]; [left; exists n; split; [lia|exact H]|]. right. intros j Hj. destruct (Nat.eq_dec j n) as [->|Hn]; [exact H|apply IH; lia].
Qed.
Lemma nodup_before : forall (l : list bytes), (forall j, (j < length l)%nat -> ~ In (nth j l []) (firstn j l)) -> NoDup l.
Proof.
  induction l as [|a l IH] using rev_ind; intros H; [constructor|]. apply nodup_app; [|constructor; [intros []|constructor]|].
  - apply IH. intros j Hj Hi. apply (H j).
    + rewrite app_length. lia.
    + rewrite app_nth1 by exact Hj. rewrite firstn_app. apply in_or_app. left. exact Hi.
  - intros b Hb [<-|[]]. apply (H (length l)).
    + rewrite app_length. cbn [length]. lia.
    + rewrite app_nth2 by lia. rewrite Nat.sub_diag. cbn [nth]. rewrite firstn_app, firstn_all, Nat.sub_diag, firstn_O, app_nil_r. exact Hb.
Qed.
Lemma split_list {A} (P Q R : A -> Prop) : (forall z, P z -> Q z \/ R z) -> forall ws, Forall P ws -> exists us vs, Permutation ws (us ++ vs) /\ Forall Q us /\ Forall R vs.
Proof.
  intros H ws Hf. induction Hf as [|z ws Hz _ (us & vs & Hp & Hu & Hv)]; [exists [], []; auto|]. destruct (H z Hz) as [Hq|Hr].
  - exists (z :: us), vs. split; [constructor; exact Hp|]. auto.
  - exists us, (z :: vs). split; [apply Permutation_cons_app; exact Hp|]. auto.
Qed.

Definition unclean {E} (g : G1 E) d cs tb bx adv n nb nk nu ls q p (z : fcoins) : Prop :=
  ((exists j, (j < nk)%nat /\ ((fcoins_any d n nb nk nu ls q p z /\ (j < nk)%nat /\ In (nth j (z_ks z) []) (zpad (first_key cs) :: firstn j (z_ks z)))
        \/ (fcoins_any d n nb nk nu ls q p z /\ (j < nk)%nat /\ exists o w1 k1, sampled g d cs tb bx adv z = Some o /\ stopped g d cs tb bx adv z = Some (w1, k1) /\ In (nth j (z_ks z) []) (map key_of (asked nk j w1 o)))
        \/ (fcoins_any d n nb nk nu ls q p z /\ (j < nk)%nat /\ begins cs (nth j (z_ks z) []))))
  \/ ((exists j, (j < nu)%nat /\ (fcoins_any d n nb nk nu ls q p z /\ (j < nu)%nat /\ In (nth j (z_us z) []) (firstn j (z_us z))))
      \/ (fcoins_any d n nb nk nu ls q p z /\ exists o, sampled g d cs tb bx adv z = Some o /\ In (nth 0 (z_us z) []) (map (skipn 128) (o_tbl o))))
  \/ (fcoins_any d n nb nk nu ls q p z /\ exists o, sampled g d cs tb bx adv z = Some o /\ In (padded 0x36 (first_key cs) ++ z_seed z) (o_tbl o))).
Lemma clean_or {E} (g : G1 E) d cs tb bx adv n nb nk nu ls q p z o :
  fcoins_any d n nb nk nu ls q p z -> sampled g d cs tb bx adv z = Some o ->
  clean z o
  \/ unclean g d cs tb bx adv n nb nk nu ls q p z.
Proof.
  intros Hz R. unfold unclean. destruct z as [[[[y ys] hs] zs] [[[[seed A] B] ks] us]]. cbn [z_ks z_us z_seed].
  destruct (table_size _ _ _ _ _ _ _ _ _ _ _ _ _ _ _ _ R) as [_ (w1 & k1 & S & _)].
  destruct (bounded_dec _ (fun j => in_dec bytes_dec (nth j ks []) (zpad (first_key cs) :: firstn j ks)) nk) as [(j & Hj & H)|D1].
  { right. left. exists j. split; [exact Hj|]. left. auto. }
  destruct (bounded_dec _ (fun j => in_dec bytes_dec (nth j ks []) (map key_of (asked nk j w1 o))) nk) as [(j & Hj & H)|D2].
  { right. left. exists j. split; [exact Hj|]. right. left. split; [exact Hz|]. split; [exact Hj|]. exists o, w1, k1. auto. }
  destruct (bounded_dec (fun j => begins cs (nth j ks []))) with (n := nk) as [(j & Hj & H)|D3].
  { intros j. unfold begins. destruct (bytes_dec (firstn 22 (padded 54 (nth j ks []))) (DOM_SEP_HASH_TO_MSG ++ [cs])); [left; left; assumption|].
    destruct (bytes_dec (firstn 22 (padded 92 (nth j ks []))) (DOM_SEP_HASH_TO_MSG ++ [cs])); [left; right; assumption|right; tauto]. }
  { right. left. exists j. split; [exact Hj|]. right. right. auto. }
  destruct (bounded_dec _ (fun j => in_dec bytes_dec (nth j us []) (firstn j us)) nu) as [(j & Hj & H)|D4].
  { right. right. left. left. exists j. auto. }
  destruct (in_dec bytes_dec (nth 0 us []) (map (skipn 128) (o_tbl o))) as [H|D5].
  { right. right. left. right. eauto. }
  destruct (in_dec bytes_dec (padded 0x36 (first_key cs) ++ seed) (o_tbl o)) as [H|D6].
  { right. right. right. eauto. }
  left. pose proof Hz as (_ & _ & _ & _ & _ & _ & _ & [Hk _] & [Hu _]).
  assert (Nk : NoDup ks) by (apply nodup_before; rewrite Hk; intros j Hj Hi; apply (D1 j Hj); right; exact Hi).
  apply (clean_from g d cs tb bx adv y ys hs zs seed A B ks us o n nb nk nu ls q p Hz R).
  - constructor; [|exact Nk]. intros Hi. apply (In_nth _ _ []) in Hi as (j & Hj & Hn). apply (D1 j); [rewrite <- Hk; exact Hj|]. left. symmetry. exact Hn.
  - apply nodup_before. rewrite Hu. exact D4.
  - intros k Hi. apply (In_nth _ _ []) in Hi as (j & Hj & Hn). rewrite <- Hn. apply D3. rewrite <- Hk. exact Hj.
  - intros w k S' j Hj. rewrite S in S'. apply some_pair in S' as [-> _]. exact (D2 j Hj).
  - exact D6.
  - exact D5.
Qed.
Lemma clean_count {E} (g : G1 E) d cs tb bx adv n nb nk nu ls q p :
  at_most (unclean g d cs tb bx adv n nb nk nu ls q p) (clean_lost d n nb nk nu ls q p).
Proof.
  pose proof (fun j => at_most_or _ _ _ _ (lost_key_again d cs n nb nk nu ls q p j) (at_most_or _ _ _ _ (lost_key_asked g d cs tb bx adv n nb nk nu ls q p j) (lost_key_begins d cs n nb nk nu ls q p j))) as H1.
  pose proof (at_most_exists _ _ H1 nk) as H2.
  pose proof (at_most_or _ _ _ _ (at_most_exists _ _ (lost_us_again d n nb nk nu ls q p) nu) (lost_u0 g d cs tb bx adv n nb nk nu ls q p)) as H3.
  pose proof (at_most_or _ _ _ _ H2 (at_most_or _ _ _ _ H3 (lost_seed g d cs tb bx adv n nb nk nu ls q p))) as H4.
  refine (at_most_le _ _ _ _ _ _ H4).
  - intros z Hz. exact Hz.
  - apply N.eq_le_incl. unfold clean_lost. rewrite Nat2N.inj_add.
    generalize (fcount d n nb (nk - 1) nu ls q p) (fcount d n nb nk (nu - 1) ls q p) (fcount d n nb nk nu 0 q p) (256 ^ 42). intros. ring.
Qed.

Definition bad_scalars d n nb nk nu ls q p (z : fcoins) : Prop :=
  (fcoins_any d n nb nk nu ls q p z /\ ~ NoDup (map scalar_of (z_hs z)))
  \/ ((fcoins_any d n nb nk nu ls q p z /\ z_y z = 0)
  \/ (exists j, (j < p)%nat /\ (fcoins_any d n nb nk nu ls q p z /\ (j < p)%nat /\ nth j (z_zs z) 0 = 0))).
Lemma scalars_or d n nb nk nu ls q p z : fcoins_any d n nb nk nu ls q p z -> fcoins_ok d n nb nk nu ls q p z \/ bad_scalars d n nb nk nu ls q p z.
Proof.
  intros Hz. unfold bad_scalars. destruct z as [[[[y ys] hs] zs] [[[[seed A] B] ks] us]]. cbn [z_hs z_y z_zs].
  destruct (NoDup_dec N.eq_dec (map scalar_of hs)) as [D1|D1]; [|right; left; auto].
  destruct (N.eq_dec y 0) as [D2|D2]; [right; right; left; auto|].
  destruct (bounded_dec _ (fun j => N.eq_dec (nth j zs 0) 0) p) as [(j & Hj & H)|D3]; [right; right; right; exists j; auto|].
  left. destruct Hz as (H1 & H2 & H3 & [H4 F4] & H5). split; [lia|]. split; [exact H2|]. split; [split; assumption|]. split; [|exact H5].
  split; [exact H4|]. apply Forall_forall. intros e He. rewrite Forall_forall in F4. pose proof (F4 e He) as Hm. cbv beta in Hm.
  apply (In_nth _ _ 0) in He as (j & Hj & <-). specialize (D3 j ltac:(lia)). lia.
Qed.
Lemma scalars_count_lost d n nb nk nu ls q p : at_most (bad_scalars d n nb nk nu ls q p) (scalars_lost d n nb nk nu ls q p).
Proof.
  pose proof (at_most_or _ _ _ _ (lost_repeats d n nb nk nu ls q p) (at_most_or _ _ _ _ (lost_y d n nb nk nu ls q p) (at_most_exists _ _ (lost_point d n nb nk nu ls q p) p))) as H.
  refine (at_most_le _ _ _ _ _ _ H); [intros z Hz; exact Hz|]. apply N.eq_le_incl. unfold scalars_lost, zcount, H_EACH, H_ALL. rewrite (Nat2N.inj_add p 1).
  generalize (fcount d n nb nk nu ls 0 p) (fr_modulus ^ N.of_nat (d + 1 + p) * (256 ^ 64) ^ N.of_nat (q + n + nb + nk + nu) * 256 ^ N.of_nat ls)
    ((256 ^ 64) ^ N.of_nat (q - 1)) (256 ^ 64 / fr_modulus + 1). intros. change (N.of_nat 1) with 1. ring.
Qed.

Lemma clean_all_coins : forall (E : env) (L : env_laws E) m (g : G1 E) d cs tb bx b adv n nb nk nu ls q p ws,
  g1_insub g = true -> (1 <= d < 64)%nat -> (cs = 0 \/ cs = 1) -> (length bx = 64%nat /\ are_bytes bx) -> (32 <= ls)%nat -> (1 <= q)%nat ->
  NoDup ws -> Forall (fun z => fcoins_any d n nb nk nu ls q p z /\ fwins_or m g d cs tb bx adv z) ws ->
  exists tx i zs, 1 <= tx <= last_time d /\ (i < q)%nat
    /\ N.of_nat (length ws) <= last_time d * N.of_nat q * N.of_nat (length zs) + (scalars_lost d n nb nk nu ls q p + clean_lost d n nb nk nu ls q p)
    /\ NoDup zs
    /\ Forall (fun z => scoins_ok d n nb nk nu ls q p z
                        /\ fsolve (challenge_for g d (scalar_of bx) b) d cs tx i tb adv z = Some (solution g d (scalar_of bx) b)) zs.
Proof.
  intros E L m g d cs tb bx b adv n nb nk nu ls q p ws Hg Hd Hcs Hbx Hls Hq Hn Hf.
  destruct (split_list (fun z => fcoins_any d n nb nk nu ls q p z /\ fwins_or m g d cs tb bx adv z) (fun z => fcoins_ok d n nb nk nu ls q p z /\ fwins m g d cs tb bx adv z) (fun z => bad_scalars d n nb nk nu ls q p z \/ unclean g d cs tb bx adv n nb nk nu ls q p z)) with (2 := Hf) as (us & vs & Hp & Hu & Hv).
  { intros z [Hz Hw]. destruct (scalars_or _ _ _ _ _ _ _ _ z Hz) as [Hok|Hb]; [|right; left; exact Hb].
    assert (Ho : exists o, sampled g d cs tb bx adv z = Some o) by (destruct z as [[[[y ys] hs] zs] [[[[seed A] B] ks] us]]; destruct Hw as (o & R & _); exists o; exact R).
    destruct Ho as [o R]. destruct (clean_or g d cs tb bx adv n nb nk nu ls q p z o Hz R) as [C|C]; [|right; right; exact C]. left. split; [exact Hok|].
    destruct z as [[[[y ys] hs] zs] [[[[seed A] B] ks] us]]. destruct Hw as (o' & R' & W). rewrite R in R'. apply some_inj in R'. subst o'. exists o. auto. }
  pose proof (Permutation_NoDup Hp Hn) as Hn2. destruct (nodup_parts _ _ Hn2) as [Nu Nv].
  destruct (code_forger_solves E L m g d cs tb bx b adv n nb nk nu ls q p us Hg Hd Hcs Hbx Hls Hq Nu Hu) as (tx & i & zs & Htx & Hi & Hl & Nz & Fz).
  exists tx, i, zs. split; [exact Htx|]. split; [exact Hi|]. split; [|split; assumption].
  rewrite (Permutation_length Hp), app_length, Nat2N.inj_add.
  pose proof (at_most_or _ _ _ _ (scalars_count_lost d n nb nk nu ls q p) (clean_count g d cs tb bx adv n nb nk nu ls q p) vs Nv Hv) as Hb.
  apply N.add_le_mono; [exact Hl|exact Hb].
Qed.

Lemma fcount_q d n nb nk nu ls q p : fcount d n nb nk nu ls 0 p * (256 ^ 64) ^ N.of_nat q = fcount d n nb nk nu ls q p.
Proof. unfold fcount. rewrite !Nat2N.inj_add, !N.pow_add_r. change ((256 ^ 64) ^ N.of_nat 0) with 1. generalize (256 ^ 64). intros. ring. Qed.
Lemma fcount_nk d n nb nk nu ls q p : (1 <= nk)%nat -> fcount d n nb (nk - 1) nu ls q p * 256 ^ 64 = fcount d n nb nk nu ls q p.
Proof.
  intros H. unfold fcount. replace (q + n + nb + nk + nu)%nat with (S (q + n + nb + (nk - 1) + nu)) by lia. rewrite (Nat2N.inj_succ (q + n + nb + (nk - 1) + nu)), N.pow_succ_r by lia.
  generalize (256 ^ 64). intros. ring.
Qed.
Lemma fcount_nu d n nb nk nu ls q p : (1 <= nu)%nat -> fcount d n nb nk (nu - 1) ls q p * 256 ^ 64 = fcount d n nb nk nu ls q p.
Proof.
  intros H. unfold fcount. replace (q + n + nb + nk + nu)%nat with (S (q + n + nb + nk + (nu - 1))) by lia. rewrite (Nat2N.inj_succ (q + n + nb + nk + (nu - 1))), N.pow_succ_r by lia.
  generalize (256 ^ 64). intros. ring.
Qed.
Lemma fcount_ls d n nb nk nu ls q p : fcount d n nb nk nu 0 q p * 256 ^ N.of_nat ls = fcount d n nb nk nu ls q p.
Proof. unfold fcount. change (256 ^ N.of_nat 0) with 1. rewrite N.mul_1_r. reflexivity. Qed.
Lemma each_fr : (256 ^ 64 / fr_modulus + 1) * fr_modulus <= 2 * 256 ^ 64.
Proof. vm_compute. discriminate. Qed.
Lemma scalars_rare d n nb nk nu ls q p : scalars_lost d n nb nk nu ls q p * fr_modulus <= N.of_nat (q * (q - 1) + p + 1) * fcount d n nb nk nu ls q p.
Proof.
  unfold scalars_lost.
  assert (H1 : N.of_nat (q * (q - 1) / 2) * (256 ^ 64 / fr_modulus + 1) * (256 ^ 64) ^ N.of_nat (q - 1) * fcount d n nb nk nu ls 0 p * fr_modulus
               <= N.of_nat (q * (q - 1)) * fcount d n nb nk nu ls q p).
  { rewrite <- (fcount_q d n nb nk nu ls q p). destruct q as [|q]; [cbn [Nat.mul Nat.div Nat.divmod fst]; change (N.of_nat 0) with 0; rewrite !N.mul_0_l; apply N.le_refl|].
    replace (S q - 1)%nat with q by lia. rewrite (Nat2N.inj_succ q), N.pow_succ_r by lia.
    assert (H2 : 2 * N.of_nat (S q * q / 2) <= N.of_nat (S q * q)) by (pose proof (Nat.mul_div_le (S q * q) 2 ltac:(lia)); lia).
    pose proof each_fr as H3. revert H2 H3. generalize (256 ^ 64 / fr_modulus + 1). intros c. generalize (N.of_nat (S q * q / 2)) (N.of_nat (S q * q)) (256 ^ 64) (fcount d n nb nk nu ls 0 p) fr_modulus. intros a b K F r H2 H3.
    generalize (K ^ N.of_nat q). intros P. replace (a * c * P * F * r) with (a * (c * r) * (P * F)) by ring. replace (b * (F * (K * P))) with (b * K * (P * F)) by ring.
    apply N.mul_le_mono_r. etransitivity; [apply N.mul_le_mono_l, H3|]. replace (a * (2 * K)) with (2 * a * K) by ring. apply N.mul_le_mono_r, H2. }
  assert (H2 : N.of_nat (p + 1) * (fr_modulus ^ N.of_nat (d + 1 + p) * (256 ^ 64) ^ N.of_nat (q + n + nb + nk + nu) * 256 ^ N.of_nat ls) * fr_modulus
               = N.of_nat (p + 1) * fcount d n nb nk nu ls q p).
  { unfold fcount. replace (d + 2 + p)%nat with (S (d + 1 + p)) by lia. rewrite (Nat2N.inj_succ (d + 1 + p)), N.pow_succ_r by lia. generalize (256 ^ 64) fr_modulus. intros. ring. }
  rewrite N.mul_add_distr_r, H2. replace (q * (q - 1) + p + 1)%nat with (q * (q - 1) + (p + 1))%nat by lia. rewrite (Nat2N.inj_add (q * (q - 1))), N.mul_add_distr_r.
  apply N.add_le_mono_r, H1.
Qed.
Lemma clean_rare d n nb nk nu ls q p : (1 <= nu)%nat -> (22 <= ls)%nat ->
  clean_lost d n nb nk nu ls q p * 256 ^ 22 <= N.of_nat (nk * (nk + q + 2) + nu * nu + 2 * q) * fcount d n nb nk nu ls q p.
Proof.
  intros Hu Hl. unfold clean_lost.
  assert (H0 : 256 ^ 22 <= 256 ^ 64) by (apply N.pow_le_mono_r; lia).
  assert (H1 : N.of_nat nk * ((N.of_nat (nk + q) + 2 * 256 ^ 42) * fcount d n nb (nk - 1) nu ls q p) * 256 ^ 22 <= N.of_nat (nk * (nk + q + 2)) * fcount d n nb nk nu ls q p).
  { destruct nk as [|nk']; [change (N.of_nat 0) with 0; rewrite !N.mul_0_l; apply N.le_0_l|]. rewrite <- (fcount_nk d n nb (S nk') nu ls q p) by lia.
    generalize (fcount d n nb (S nk' - 1) nu ls q p). intros F. rewrite (Nat2N.inj_mul (S nk')), (Nat2N.inj_add (S nk' + q) 2). generalize (N.of_nat (S nk' + q)) (N.of_nat (S nk')). intros a k.
    replace (k * ((a + 2 * 256 ^ 42) * F) * 256 ^ 22) with (k * (a * 256 ^ 22 + 2 * (256 ^ 42 * 256 ^ 22)) * F) by ring.
    replace (256 ^ 42 * 256 ^ 22) with (256 ^ 64) by (rewrite <- N.pow_add_r; reflexivity).
    replace (k * (a + N.of_nat 2) * (F * 256 ^ 64)) with (k * (a * 256 ^ 64 + 2 * 256 ^ 64) * F) by (change (N.of_nat 2) with 2; generalize (256 ^ 64); intros; ring).
    apply N.mul_le_mono_r, N.mul_le_mono_l, N.add_le_mono_r, N.mul_le_mono_l, H0. }
  assert (H2 : (N.of_nat nu * N.of_nat nu + N.of_nat q) * fcount d n nb nk (nu - 1) ls q p * 256 ^ 22 <= N.of_nat (nu * nu + q) * fcount d n nb nk nu ls q p).
  { rewrite <- (fcount_nu d n nb nk nu ls q p Hu). rewrite <- N.mul_assoc, (Nat2N.inj_add (nu * nu)), (Nat2N.inj_mul nu nu). apply N.mul_le_mono_l, N.mul_le_mono_l, H0. }
  assert (H3 : N.of_nat q * fcount d n nb nk nu 0 q p * 256 ^ 22 <= N.of_nat q * fcount d n nb nk nu ls q p).
  { rewrite <- (fcount_ls d n nb nk nu ls q p). rewrite <- N.mul_assoc. apply N.mul_le_mono_l, N.mul_le_mono_l, N.pow_le_mono_r; lia. }
  replace (nk * (nk + q + 2) + nu * nu + 2 * q)%nat with (nk * (nk + q + 2) + (nu * nu + q) + q)%nat by lia.
  rewrite (Nat2N.inj_add (nk * (nk + q + 2) + (nu * nu + q))), (Nat2N.inj_add (nk * (nk + q + 2))).
  revert H1 H2 H3. generalize (N.of_nat nk * ((N.of_nat (nk + q) + 2 * 256 ^ 42) * fcount d n nb (nk - 1) nu ls q p)) ((N.of_nat nu * N.of_nat nu + N.of_nat q) * fcount d n nb nk (nu - 1) ls q p)
    (N.of_nat q * fcount d n nb nk nu 0 q p) (N.of_nat (nk * (nk + q + 2))) (N.of_nat (nu * nu + q)) (fcount d n nb nk nu ls q p). clear. intros a b c x y F H1 H2 H3.
  rewrite !N.mul_add_distr_r. apply N.add_le_mono; [apply N.add_le_mono; [exact H1|exact H2]|exact H3].
Qed.
Lemma few_lost : forall d n nb nk nu ls q p, (1 <= nu)%nat -> (32 <= ls)%nat ->
  exists all : list fcoins, NoDup all /\ (forall z, In z all <-> fcoins_any d n nb nk nu ls q p z)
  /\ scalars_lost d n nb nk nu ls q p * fr_modulus <= N.of_nat (q * (q - 1) + p + 1) * N.of_nat (length all)
  /\ clean_lost d n nb nk nu ls q p * 256 ^ 22 <= N.of_nat (nk * (nk + q + 2) + nu * nu + 2 * q) * N.of_nat (length all).
Proof.
  intros d n nb nk nu ls q p Hu Hl. exists (gall fr_modulus d n nb nk nu ls q p). split; [apply gall_nodup|]. split; [intros z; apply gall_in|].
  rewrite gall_length, gcount_f. split; [apply scalars_rare|apply clean_rare; lia].
Qed.
Lemma unclean_few : forall (E : env) (g : G1 E) d cs tb bx adv n nb nk nu ls q p ws,
  NoDup ws -> Forall (fun z => fcoins_any d n nb nk nu ls q p z /\ exists o, sampled g d cs tb bx adv z = Some o /\ ~ clean z o) ws ->
  N.of_nat (length ws) <= clean_lost d n nb nk nu ls q p.
Proof.
  intros E g d cs tb bx adv n nb nk nu ls q p ws Hn Hf. refine (clean_count g d cs tb bx adv n nb nk nu ls q p ws Hn _). eapply Forall_impl; [|exact Hf].
  intros z (Hz & o & R & C). destruct (clean_or g d cs tb bx adv n nb nk nu ls q p z o Hz R) as [C'|U]; [contradiction|exact U].
Qed.
Lemma ok_any d n nb nk nu ls q p z : fcoins_ok d n nb nk nu ls q p z -> fcoins_any d n nb nk nu ls q p z.
Proof.
  destruct z as [[[[y ys] hs] zs] [[[[seed A] B] ks] us]]. intros (H1 & H2 & [H3 _] & [H4 F4] & H5). split; [lia|]. split; [exact H2|]. split; [exact H3|]. split; [|exact H5].
  split; [exact H4|]. eapply Forall_impl; [|exact F4]. intros e He. exact (proj2 He).
Qed.
Lemma wins_or {E} m (g : G1 E) d cs tb bx adv z : fwins m g d cs tb bx adv z -> fwins_or m g d cs tb bx adv z.
Proof. destruct z as [[[[y ys] hs] zs] [[[[seed A] B] ks] us]]. intros (o & R & _ & W). exists o. split; [exact R|]. intros _. exact W. Qed.
