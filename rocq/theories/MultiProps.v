(** Lemmas behind Properties_Multi.v. *)
From Coq Require Import ZArith Permutation.
From Coq Require Import ZifyBool ZifyN ZifyNat.
From Verif Require Import Base Env NMod GroupFacts SpecTime Time TimeFacts Prng SpecPrng SubKey SecretKey Keys Sig SpecKey SpecUpdate SpecAgg
  SpecRed SpecMulti SubKeyFacts VerProps AggProps LinProps RedProps.
Local Open Scope N_scope.

Lemma occurrences_pos l : In None l -> 0 < occurrences l.
Proof. induction l as [|o l IH]; intros H; [destruct H|]. cbn [occurrences fold_right]. fold (occurrences l). destruct o as [x|]; [|lia]. destruct H as [H|H]; [discriminate H|exact (IH H)]. Qed.
Lemma occurrences_le l : occurrences l <= N.of_nat (length l).
Proof. induction l as [|o l IH]; [reflexivity|]. cbn [occurrences fold_right length]. fold (occurrences l). destruct o; lia. Qed.

Lemma signers_sum {E} (L : env_laws E) (pp : pubparam E) pk x : pk_pk pk = g2_mul x (pp_g2 pp) -> forall l,
  key_sum (signers pp pk l) = g2_mul (occurrences l * x + known l) (pp_g2 pp).
Proof.
  intros Hk. induction l as [|o l IH]; [cbn; symmetry; apply (l2_mul0 E L)|].
  cbn [signers map key_sum fold_right occurrences known]. fold (occurrences l) (known l). fold (signers pp pk l) (key_sum (signers pp pk l)).
  rewrite IH. destruct o as [y|]; cbn [pk_pk].
  - rewrite <- (l2_mul_add E L). f_equal. lia.
  - rewrite Hk, <- (l2_mul_add E L). f_equal. lia.
Qed.

Lemma key_sum_fold {E} (L : env_laws E) (pks : list (pubkey E)) : forall a, fold_left (fun a e => g2_add a (pk_pk e)) pks a = g2_add a (key_sum pks).
Proof.
  induction pks as [|k pks IH]; intros a; cbn [fold_left key_sum fold_right].
  - rewrite (l2_comm E L), (l2_zero E L). reflexivity.
  - rewrite IH. symmetry. apply (l2_assoc E L).
Qed.
Lemma verify_aggregated_sum {E} (L : env_laws E) m (s : signature E) (pp : pubparam E) pks msg :
  Forall (fun k => pk_cs k = pp_cs pp) pks -> pks <> [] ->
  verify_aggregated m s pks pp msg = verify m s (PubKey (pp_cs pp) (key_sum pks)) pp msg.
Proof.
  intros Hf Hn. unfold verify_aggregated.
  assert (Hb : forallb (fun e => pp_cs pp =? pk_cs e) pks = true).
  { apply forallb_forall. intros k Hk. rewrite Forall_forall in Hf. rewrite (Hf k Hk). apply N.eqb_refl. }
  rewrite Hb. cbn [negb]. destruct pks as [|k pks]; [congruence|].
  destruct (sig_cs s =? pp_cs pp) eqn:Q; cbn [negb].
  - rewrite (key_sum_fold L). reflexivity.
  - unfold verify. destruct (valid_cs (pp_cs pp)); [|reflexivity]. cbn [negb]. rewrite Q. reflexivity.
Qed.

Lemma iso_algebra (c n x K mK q1 q2 rr : Z) : (c * n = 1 + q1 * rr)%Z -> (mK = - K + q2 * rr)%Z ->
  (c * (n * x + K + mK) - x = (q1 * x + c * q2) * rr)%Z.
Proof. intros H1 ->. replace (c * (n * x + K + (- K + q2 * rr)))%Z with ((c * n) * x + c * q2 * rr)%Z by ring. rewrite H1. ring. Qed.
Lemma iso_cong n x K : n mod fr_modulus <> 0 -> cong (fr_inv n * (n * x + K + minus K)) x.
Proof.
  intros Hn. destruct (fr_inv_ok n Hn) as [q1 H1]. destruct (minus_ok K) as [q2 H2].
  exists (q1 * Z.of_N x + Z.of_N (fr_inv n) * q2)%Z.
  rewrite N2Z.inj_mul, !N2Z.inj_add, N2Z.inj_mul. exact (iso_algebra _ _ _ _ _ _ _ _ H1 H2).
Qed.
Lemma inv_cong n : n mod fr_modulus <> 0 -> cong (n * fr_inv n) 1.
Proof. intros Hn. destruct (fr_inv_ok n Hn) as [q1 H1]. exists q1. rewrite N2Z.inj_mul, Z.mul_comm, H1. change (Z.of_N 1) with 1%Z. lia. Qed.
Lemma minus_cong K : cong (minus K + K) 0.
Proof. destruct (minus_ok K) as [q2 H2]. exists q2. rewrite N2Z.inj_add, H2. change (Z.of_N 0) with 0%Z. lia. Qed.

Lemma isolate_honest {E} (L : env_laws E) (pp : pubparam E) l x t v M k : pp_ok pp -> occurrences l mod fr_modulus <> 0 ->
  isolate pp l (honest_sig pp (occurrences l * x + known l) t v M k) = honest_sig pp x t v M (fr_inv (occurrences l) * k).
Proof.
  intros Hpp Hn. unfold isolate, honest_sig. cbn [sig_cs sig_time sig_1 sig_2]. f_equal; [symmetry; apply (l2_mul_mul E L)|].
  rewrite (l1_comm E L (g1_mul _ _) (g1_mul k _)), <- (l1_assoc E L), <- (l1_mul_add E L), (l1_mul_dist E L), <- !(l1_mul_mul E L), (l1_comm E L).
  f_equal. apply (cong_mul L); [apply Hpp|]. apply iso_cong, Hn.
Qed.
Lemma unisolate {E} (L : env_laws E) (pp : pubparam E) l x t v M k (s : signature E) : pp_ok pp -> occurrences l mod fr_modulus <> 0 ->
  g2_insub (sig_1 s) = true -> g1_insub (sig_2 s) = true ->
  isolate pp l s = honest_sig pp x t v M k -> s = honest_sig pp (occurrences l * x + known l) t v M (occurrences l * k).
Proof.
  intros Hpp Hn I1 I2 H. destruct s as [cs ts s1 s2]. cbn [sig_1 sig_2] in I1, I2.
  pose proof (f_equal sig_cs H) as H1. pose proof (f_equal sig_time H) as H2. pose proof (f_equal sig_1 H) as H3. pose proof (f_equal sig_2 H) as H4.
  clear H. unfold isolate, honest_sig in *. cbn [sig_cs sig_time sig_1 sig_2] in *. subst cs ts.
  set (n := occurrences l) in *. set (K := known l) in *. clearbody n K. f_equal.
  - apply (f_equal (g2_mul n)) in H3. rewrite <- !(l2_mul_mul E L) in H3. rewrite (cong_mul2 L s1 _ 1 I1 (inv_cong n Hn)), (l2_mul1 E L) in H3. exact H3.
  - apply (f_equal (g1_mul n)) in H4. rewrite <- (l1_mul_mul E L) in H4.
    rewrite (cong_mul L _ _ 1) in H4; [|apply (l1_sub_add E L); [exact I2|apply (g1_mul_insub L), Hpp]|exact (inv_cong n Hn)].
    rewrite (l1_mul1 E L) in H4. apply (f_equal (fun z => g1_add z (g1_mul K (pp_h pp)))) in H4.
    rewrite <- (l1_assoc E L), <- (l1_mul_add E L) in H4. rewrite (cong_mul L _ _ 0 (ppo_h pp Hpp) (minus_cong K)), (l1_mul0 E L), (l1_comm E L), (l1_zero E L) in H4.
    rewrite H4, (l1_mul_dist E L), <- !(l1_mul_mul E L), (l1_mul_add E L), <- !(l1_assoc E L). f_equal. apply (l1_comm E L).
Qed.

Lemma signers_cs {E} (pp : pubparam E) pk l : pk_cs pk = pp_cs pp -> Forall (fun k => pk_cs k = pp_cs pp) (signers pp pk l).
Proof. intros H. unfold signers. apply Forall_map, Forall_forall. intros [x|] _; [reflexivity|exact H]. Qed.

Lemma aggregate_isolated : forall (E : env) (L : env_laws E) m m' (pp : pubparam E) pk x l (s : signature E) msg,
  pp_ok pp -> pp_g2 pp = g2_one -> pk = PubKey (pp_cs pp) (g2_mul x (pp_g2 pp)) -> In None l -> N.of_nat (length l) < fr_modulus ->
  (verify_aggregated m s (signers pp pk l) pp msg = Ok true <->
   g2_insub (sig_1 s) = true /\ g1_insub (sig_2 s) = true /\ verify m' (isolate pp l s) pk pp msg = Ok true).
Proof.
  intros E L m m' pp pk x l s msg Hpp Hg Hk Hin Hlen.
  assert (Hocc : occurrences l mod fr_modulus <> 0).
  { pose proof (occurrences_pos l Hin). pose proof (occurrences_le l). rewrite N.mod_small by lia. lia. }
  assert (Hne : signers pp pk l <> []) by (destruct l; [destruct Hin|discriminate]).
  rewrite (verify_aggregated_sum L) by (try exact Hne; apply signers_cs; rewrite Hk; reflexivity).
  assert (Hsum : key_sum (signers pp pk l) = g2_mul (occurrences l * x + known l) (pp_g2 pp)) by (apply (signers_sum L); rewrite Hk; reflexivity).
  rewrite (accepted_form E L m pp s (PubKey (pp_cs pp) (key_sum (signers pp pk l))) msg (occurrences l * x + known l) Hpp Hg Hsum).
  assert (Hpk : pk_pk pk = g2_mul x (pp_g2 pp)) by (rewrite Hk; reflexivity).
  rewrite (accepted_form E L m' pp (isolate pp l s) pk msg x Hpp Hg Hpk). split.
  - intros (Hc & v & k & Hv & Hs).
    assert (H1 : g2_insub (sig_1 s) = true) by (rewrite Hs; apply (g2_mul_insub L), Hpp).
    assert (H2 : g1_insub (sig_2 s) = true).
    { rewrite Hs. cbn [honest_sig sig_2]. apply (l1_sub_add E L); apply (g1_mul_insub L); [apply Hpp|]. apply (sig_val_insub L), Hpp. }
    split; [exact H1|]. split; [exact H2|]. split; [exact Hc|]. exists v, (fr_inv (occurrences l) * k). split; [exact Hv|].
    rewrite Hs at 1. rewrite (isolate_honest L) by assumption. reflexivity.
  - intros (H1 & H2 & Hc & v & k & Hv & Hs). split; [exact Hc|]. exists v, (occurrences l * k). split; [exact Hv|].
    exact (unisolate L pp l x (sig_time s) v _ k s Hpp Hocc H1 H2 Hs).
Qed.

(** The game. *)
Lemma single_play {E} (pp : pubparam E) x tx mx : forall f rs s l q,
  mplay pp x rs f = Some (s, l, q) -> forallb (fresh (pp_depth pp) tx mx) q = true ->
  real_play pp x tx mx rs (single pp f) = Some (isolate pp l s).
Proof.
  unfold real_play. induction f as [s0 l0|t k IH|t msg k IH]; intros rs s l q H Hq.
  - destruct rs; cbn [mplay] in H; injection H as -> -> _; reflexivity.
  - destruct rs as [|r0 rs]; [discriminate H|]. cbn [mplay] in H. destruct (in_tree (pp_depth pp) t) eqn:Et; [|discriminate H].
    destruct (mplay pp x rs (k _)) as [[[s1 l1] q1]|] eqn:Em; [|discriminate H]. cbn [note] in H. injection H as -> -> <-.
    cbn [forallb] in Hq. apply andb_true_iff in Hq as [Hq1 Hq2]. cbn [single play]. unfold real_key.
    assert (Ha : key_allowed (pp_depth pp) tx t = true) by (unfold key_allowed; unfold in_tree in Et; rewrite Et; exact Hq1).
    rewrite Ha. exact (IH _ _ _ _ _ Em Hq2).
  - destruct rs as [|r0 rs]; [discriminate H|]. cbn [mplay] in H. destruct (in_tree (pp_depth pp) t) eqn:Et; [|discriminate H].
    destruct (mplay pp x rs (k _)) as [[[s1 l1] q1]|] eqn:Em; [|discriminate H]. cbn [note] in H. injection H as -> -> <-.
    cbn [forallb] in Hq. apply andb_true_iff in Hq as [Hq1 Hq2]. cbn [single play]. unfold real_sig.
    assert (Ha : sig_allowed (pp_depth pp) tx mx t (msg_scalar pp msg) = true) by (unfold sig_allowed; unfold in_tree in Et; rewrite Et; exact Hq1).
    rewrite Ha. exact (IH _ _ _ _ _ Em Hq2).
Qed.

Lemma exp_params_ok {E} (L : env_laws E) (g : G1 E) d cs y ys : g1_insub g = true -> (1 <= d < 64)%nat -> length ys = (d + 1)%nat -> pp_ok (exp_params g d cs y ys).
Proof.
  intros Hg Hd Hl. constructor; cbn [exp_params pp_depth pp_hlist pp_h pp_g2].
  - exact Hd.
  - rewrite map_length. lia.
  - apply Forall_map, Forall_forall. intros e _. apply (g1_mul_insub L), Hg.
  - apply (g1_mul_insub L), Hg.
  - apply (l2_one_sub E L).
Qed.
Lemma node_at_last d t v : node_at d t v -> 1 <= t <= last_time d.
Proof.
  intros [H1 H2]. split; [exact H1|]. assert (N.to_nat (t - 1) < length (preorder d))%nat by (apply nth_error_Some; congruence).
  pose proof (preorder_length d). unfold last_time. lia.
Qed.
Lemma mwins_wins {E} (L : env_laws E) m (g : G1 E) d cs x msg adv n z : g1_insub g = true -> (1 <= d < 64)%nat ->
  coins_ok d n z -> mwins m g d cs x msg adv z -> exists tx, 1 <= tx <= last_time d /\ wins m g d cs x tx msg (one_signer adv) z.
Proof.
  intros Hg Hd Hz Hw. destruct z as [[y ys] rs]. destruct Hz as (_ & (Hl & _) & _). destruct Hw as (s & l & q & Hp & Hin & Hlen & Hq & Hv).
  pose proof (exp_params_ok L g d cs y ys Hg Hd Hl) as Hpp. set (pp := exp_params g d cs y ys) in *.
  apply (aggregate_isolated E L m m pp (PubKey cs (g2_mul x g2_one)) x l s msg Hpp eq_refl eq_refl Hin Hlen) in Hv as (_ & _ & Hv).
  assert (Ht : 1 <= sig_time s <= last_time d).
  { apply (accepted_form E L m pp (isolate pp l s) (PubKey cs (g2_mul x g2_one)) msg x Hpp eq_refl eq_refl) in Hv as (_ & v & k & Hv & _). exact (node_at_last _ _ _ Hv). }
  exists (sig_time s). split; [exact Ht|]. unfold wins. fold pp. exists (isolate pp l s).
  split; [exact (single_play pp x (sig_time s) (msg_scalar pp msg) _ rs s l q Hp Hq)|]. split; [reflexivity|exact Hv].
Qed.

Lemma split_class {A} (P : nat -> A -> Prop) T : forall ws, Forall (fun w => exists t, (1 <= t <= S T)%nat /\ P t w) ws ->
  exists us vs, Permutation ws (us ++ vs) /\ Forall (P (S T)) us /\ Forall (fun w => exists t, (1 <= t <= T)%nat /\ P t w) vs.
Proof.
  induction 1 as [|w ws (t & Ht & Hw) _ (us & vs & Hp & Hu & Hv)]; [exists [], []; repeat split; constructor|].
  destruct (Nat.eq_dec t (S T)) as [->|Hne].
  - exists (w :: us), vs. split; [cbn; constructor; exact Hp|]. split; [constructor; assumption|exact Hv].
  - exists us, (w :: vs). split; [apply Permutation_cons_app; exact Hp|]. split; [exact Hu|]. constructor; [|exact Hv]. exists t. split; [lia|exact Hw].
Qed.
Lemma nodup_parts {A} : forall us vs : list A, NoDup (us ++ vs) -> NoDup us /\ NoDup vs.
Proof.
  induction us as [|u us IH]; intros vs H; [split; [constructor|exact H]|]. inversion H as [|? ? H1 H2]; subst. destruct (IH vs H2) as [I1 I2].
  split; [|exact I2]. constructor; [|exact I1]. intros Hin. apply H1, in_or_app. left. exact Hin.
Qed.
Lemma pigeons {A} (P : nat -> A -> Prop) : forall T ws, (1 <= T)%nat -> NoDup ws -> Forall (fun w => exists t, (1 <= t <= T)%nat /\ P t w) ws ->
  exists t us, (1 <= t <= T)%nat /\ (length ws <= T * length us)%nat /\ NoDup us /\ Forall (P t) us /\ incl us ws.
Proof.
  induction T as [|T IH]; intros ws HT Hn Hf; [lia|]. destruct (split_class P T ws Hf) as (us & vs & Hp & Hu & Hv).
  assert (Hlen : length ws = (length us + length vs)%nat) by (rewrite (Permutation_length Hp); apply app_length).
  assert (Hn2 : NoDup (us ++ vs)) by (exact (Permutation_NoDup Hp Hn)).
  assert (Hi1 : incl us ws) by (intros w Hw; apply (Permutation_in w (Permutation_sym Hp)); apply in_or_app; auto).
  assert (Hi2 : incl vs ws) by (intros w Hw; apply (Permutation_in w (Permutation_sym Hp)); apply in_or_app; auto).
  destruct (nodup_parts _ _ Hn2) as [Nu Nv].
  destruct T as [|T].
  - assert (vs = []) as -> by (destruct vs as [|w vs]; [reflexivity|]; inversion Hv as [|? ? (t & Ht & _)]; lia).
    exists 1%nat, us. cbn [length] in Hlen. split; [lia|]. split; [lia|]. split; [exact Nu|]. split; [exact Hu|exact Hi1].
  - destruct (IH vs ltac:(lia) Nv Hv) as (t & us' & Ht & Hl' & N' & F' & I').
    destruct (le_lt_dec (length us) (length us')) as [Hc|Hc].
    + exists t, us'. split; [lia|]. split; [nia|]. split; [exact N'|]. split; [exact F'|]. intros w Hw. apply Hi2, I', Hw.
    + exists (S (S T)), us. split; [lia|]. split; [nia|]. split; [exact Nu|]. split; [exact Hu|exact Hi1].
Qed.

Lemma aggregate_forger_solves : forall (E : env) (L : env_laws E) m (g : G1 E) d cs a b msg adv n ws,
  g1_insub g = true -> (1 <= d < 64)%nat ->
  NoDup ws -> Forall (fun z => coins_ok d n z /\ mwins m g d cs a msg adv z) ws ->
  exists tx zs, 1 <= tx <= last_time d /\ N.of_nat (length ws) <= last_time d * N.of_nat (length zs) /\ NoDup zs
    /\ Forall (fun z => coins_ok d n z /\ solve (challenge_for g d a b) d cs tx msg (one_signer adv) z = Some (solution g d a b)) zs.
Proof.
  intros E L m g d cs a b msg adv n ws Hg Hd Hn Hf.
  assert (Hlast : 1 <= last_time d).
  { unfold last_time, pow2. assert (2 ^ 1 <= 2 ^ N.of_nat d) by (apply N.pow_le_mono_r; lia). change (2 ^ 1) with 2 in H. lia. }
  set (P := fun (t : nat) z => coins_ok d n z /\ wins m g d cs a (N.of_nat t) msg (one_signer adv) z).
  destruct (pigeons P (N.to_nat (last_time d)) ws ltac:(lia) Hn) as (t & us & Ht & Hl & Nu & Fu & _).
  { eapply Forall_impl; [|exact Hf]. intros z [Hz Hw]. destruct (mwins_wins L m g d cs a msg adv n z Hg Hd Hz Hw) as (tx & Htx & Hw').
    exists (N.to_nat tx). split; [lia|]. split; [exact Hz|]. rewrite N2Nat.id. exact Hw'. }
  destruct (forger_solves E L m g d cs a b (N.of_nat t) msg (one_signer adv) n us Hg Hd ltac:(lia) Nu Fu) as (zs & Hzl & Hzn & Hzf).
  exists (N.of_nat t), zs. split; [lia|]. split; [rewrite Hzl; nia|]. split; [exact Hzn|exact Hzf].
Qed.
