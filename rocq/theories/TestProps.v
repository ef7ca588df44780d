(** Lemmas behind Properties_Test.v: the test programs pass. *)
From Coq Require Import ZifyBool ZifyNat ZifyN.
From Verif Require Import Base Env Time Prng SubKey SecretKey Keys Sig IO Serdes Api Ffi Python Programs Tests.
From Verif Require Import SpecTime TimeFacts GroupFacts SpecPrng PrngFacts SpecKey SubKeyFacts SpecUpdate UpdateFacts KeyFacts.
From Verif Require Import SpecSer IOFacts SerFacts HistoryFacts KeyProps SubProps ValProps SerProps SpecFfi FfiProps VerProps
  SpecRand RandProps AlgProps SpecAgg AggProps SpecColl CollProps SpecProg ProgProps SpecTest.
Local Open Scope N_scope.

(** * Programs that pass *)
Lemma passes_ok {E} m (pp : pubparam E) hs : passes m pp hs (Ok tt).
Proof. left. reflexivity. Qed.
Lemma passes_bind {E} m (pp : pubparam E) hs r k : passes m pp hs r -> passes m pp hs (k tt) -> passes m pp hs (let! x := r in k x).
Proof. intros [-> |[-> H]] Hk; [exact Hk|right; auto]. Qed.
Lemma passes_each {E} m (pp : pubparam E) hs {A} (l : list A) f :
  (forall x, In x l -> passes m pp hs (f x)) -> passes m pp hs (for_each l f).
Proof.
  induction l as [|x l IH]; intros H; cbn [for_each]; [apply passes_ok|].
  apply (passes_bind m pp hs (f x) (fun _ => for_each l f)).
  - apply H. left. reflexivity.
  - apply IH. intros y Hy. apply H. right. exact Hy.
Qed.
Lemma breaks_sub {E} m (pp : pubparam E) hs hs' : incl hs hs' -> breaks m pp hs -> breaks m pp hs'.
Proof. intros Hi (ks & l & o & l' & H & Hb). exists ks, l, o, l'. auto. Qed.
Lemma passes_sub {E} m (pp : pubparam E) hs hs' r : incl hs hs' -> passes m pp hs r -> passes m pp hs' r.
Proof. intros Hi [->|[-> H]]; [left; reflexivity|right; split; [reflexivity|apply (breaks_sub m pp hs hs' Hi H)]]. Qed.
Lemma range_in a b j : In j (range a b) <-> exists k, j = N.of_nat k /\ (a <= k < b)%nat.
Proof.
  unfold range. rewrite in_map_iff. split.
  - intros (k & <- & Hk). apply in_seq in Hk. exists k. split; [reflexivity|]. lia.
  - intros (k & -> & Hk). exists k. split; [reflexivity|]. apply in_seq. lia.
Qed.
Lemma assert_true_ok b : b = Ok true -> assert_true b = Ok tt.
Proof. intros ->. reflexivity. Qed.

(** * Keys *)
Lemma updated_cases {E} (L : env_laws E) m (pp : pubparam E) kseed l pk sk t seed :
  pp_ok pp -> (pp_depth pp <= 32)%nat -> reached m pp kseed l pk sk -> sec_time sk < t <= last_time (pp_depth pp) ->
  (exists sk', updated m pp t seed sk = Ok sk' /\ update m pp t seed sk = (Ok tt, sk')
     /\ reached m pp kseed (l ++ [OpUpdate t seed]) pk sk' /\ sec_time sk' = t)
  \/ (updated m pp t seed sk = Panic P_PRNG /\ breaks_at m pp kseed l seed).
Proof.
  intros Hpp Hd Hr Ht. destruct (reachable_good L m pp pk sk Hpp (reached_reachable _ _ _ _ _ _ Hr)) as (x & _ & _ & Hg & _).
  unfold updated, run_mut. destruct (update_good_ok L m pp x sk t seed Hpp Hg Ht) as [(sk' & Hu & _ & Ht')|Hu]; rewrite Hu.
  - left. exists sk'. split; [reflexivity|]. split; [reflexivity|]. split; [|exact Ht'].
    apply (reached_update m pp kseed l pk sk t seed sk' Hr Hu).
  - right. split; [reflexivity|]. apply (reached_update_panic L m pp kseed l pk sk t seed P_PRNG sk Hpp Hd Hr Hu).
Qed.

Lemma for_each_ok {A} (l : list A) f : (forall x, In x l -> f x = Ok tt) -> for_each l f = Ok tt.
Proof.
  induction l as [|x l IH]; intros H; cbn [for_each]; [reflexivity|].
  rewrite (H x (or_introl eq_refl)). cbn [bind]. apply IH. intros y Hy. apply H. right. exact Hy.
Qed.
Lemma check_ssks_ok {E} (L : env_laws E) m (pp : pubparam E) pk sk : pp_ok pp -> reachable m pp pk sk ->
  check_ssks m pp pk sk = Ok tt.
Proof.
  intros Hpp Hr. destruct (reachable_good L m pp pk sk Hpp Hr) as (x & _ & -> & Hg & _).
  unfold check_ssks. apply for_each_ok. intros s Hs. apply assert_true_ok.
  pose proof (gsk_honest _ _ _ Hg) as Hh. rewrite Forall_forall in Hh. destruct (Hh s Hs) as (v & r & Hn & He). rewrite He.
  apply (ssk_validate_honest L); auto.
Qed.
Lemma sk_valid {E} (L : env_laws E) m (pp : pubparam E) pk sk : pp_ok pp -> reachable m pp pk sk ->
  assert_true (sk_validate m sk pk pp) = Ok tt.
Proof.
  intros Hpp Hr. destruct (reachable_good L m pp pk sk Hpp Hr) as (x & _ & -> & Hg & _). apply assert_true_ok.
  apply (validate_good L); auto.
Qed.

Section KeyTests.
Context {E : env} (L : env_laws E) (m : mode) (pp : pubparam E) (kseed seed : bytes).
Context (Hpp : pp_ok pp) (Hd : (pp_depth pp <= 32)%nat).

(** One update of a key, and something that holds of all keys after it. *)
Lemma passes_update hs l pk sk t k :
  reached m pp kseed l pk sk -> sec_time sk < t <= last_time (pp_depth pp) ->
  (exists l', In (kseed, l ++ OpUpdate t seed :: l') hs) ->
  (forall sk', updated m pp t seed sk = Ok sk' -> update m pp t seed sk = (Ok tt, sk') ->
     reached m pp kseed (l ++ [OpUpdate t seed]) pk sk' -> sec_time sk' = t -> passes m pp hs (k sk')) ->
  passes m pp hs (let! sk' := updated m pp t seed sk in k sk').
Proof.
  intros Hr Ht (l' & Hi) Hk. destruct (updated_cases L m pp kseed l pk sk t seed Hpp Hd Hr Ht) as [(sk' & H1 & H2 & H3 & H4)|[H1 Hb]].
  - rewrite H1. cbn [bind]. apply Hk; assumption.
  - rewrite H1. right. split; [reflexivity|]. exists kseed, l, (OpUpdate t seed), l'. auto.
Qed.
Lemma singles_in n j : In j (range 2 n) -> exists l', In (kseed, [] ++ OpUpdate j seed :: l') (singles kseed seed n).
Proof. intros H. exists []. apply in_map_iff. exists j. auto. Qed.
Lemma twos_in n j i : In j (seq 2 (n - 2)) -> In i (range (j + 1) n) ->
  exists l', In (kseed, [OpUpdate (N.of_nat j) seed] ++ OpUpdate i seed :: l') (twos kseed seed n).
Proof. intros H Hi. exists []. apply in_flat_map. exists j. split; [exact H|]. apply in_map_iff. exists i. auto. Qed.
Lemma more_in {A} (hs hs' : list (bytes * list A)) (h : list A -> list A) : (exists l', In (kseed, h l') hs) -> exists l', In (kseed, h l') (hs ++ hs').
Proof. intros (l' & H). exists l'. apply in_or_app. auto. Qed.
Lemma more_in' {A} (hs hs' : list (bytes * list A)) (h : list A -> list A) : (exists l', In (kseed, h l') hs') -> exists l', In (kseed, h l') (hs ++ hs').
Proof. intros (l' & H). exists l'. apply in_or_app. auto. Qed.

(** [for j in 2..n], from a key for time 1. *)
Lemma passes_singles hs pk sk n k :
  reached m pp kseed [] pk sk -> sec_time sk = 1 -> N.of_nat n <= last_time (pp_depth pp) + 1 ->
  incl (singles kseed seed n) hs ->
  (forall j sk', In j (range 2 n) -> update m pp j seed sk = (Ok tt, sk') -> reached m pp kseed [OpUpdate j seed] pk sk' ->
     sec_time sk' = j -> passes m pp hs (k j sk')) ->
  passes m pp hs (for_each (range 2 n) (fun j => let! sk' := updated m pp j seed sk in k j sk')).
Proof.
  intros Hr Ht Hn Hi Hk. apply passes_each. intros j Hj. pose proof Hj as Hj'. apply range_in in Hj' as (i & Hji & Hin).
  apply (passes_update hs [] pk sk j (k j) Hr); [lia| |intros sk' _ Hu Hr' Ht'; apply (Hk j sk' Hj Hu Hr' Ht')].
  destruct (singles_in n j Hj) as (l' & H). exists l'. apply Hi, H.
Qed.
Lemma keygen_now : (32 <= length kseed)%nat -> supported (pp_cs pp) ->
  exists pk sk pop, key_gen kseed pp = Ok (pk, sk, pop) /\ reached m pp kseed [] pk sk /\ sec_time sk = 1
    /\ wf_pk pk /\ wf_pop pop.
Proof.
  intros Hs Hcs. apply valid_cs_supported in Hcs.
  destruct (keygen_ok L m pp kseed Hpp Hcs Hs) as (pk & sk & pop & Hk & Hw & Hwp & _ & _ & Ht). exists pk, sk, pop.
  split; [exact Hk|]. split; [apply (reached_keygen m pp kseed pk sk pop Hk)|]. auto.
Qed.
Lemma pop_now pk sk pop : pp_g2 pp = g2_one -> key_gen kseed pp = Ok (pk, sk, pop) -> assert_ (pk_validate pk pop) = Ok tt.
Proof. intros Hone Hk. rewrite (keygen_pop E L pp kseed pk sk pop Hpp Hone Hk). reflexivity. Qed.

Lemma incremental_passes pk hs : forall k a n l sk, k = (n - a)%nat -> N.of_nat n <= last_time (pp_depth pp) + 1 ->
  reached m pp kseed l pk sk -> sec_time sk < N.of_nat a ->
  In (kseed, l ++ map (fun j => OpUpdate j seed) (range a n)) hs ->
  passes m pp hs (incremental m pp pk seed (range a n) sk).
Proof.
  induction k as [|k IH]; intros a n l sk Hk Hn Hr Ht Hi.
  - rewrite range_nil by lia. apply passes_ok.
  - rewrite range_cons in * by lia. cbn [incremental map] in *.
    apply (passes_update hs l pk sk (N.of_nat a) _ Hr); [lia|eauto|].
    intros sk' _ _ Hr' Ht'. rewrite (check_ssks_ok L m pp pk sk' Hpp (reached_reachable _ _ _ _ _ _ Hr')). cbn [bind].
    apply (IH (S a) n _ sk' ltac:(lia) Hn Hr' ltac:(lia)). rewrite snoc_cons. exact Hi.
Qed.
End KeyTests.

Lemma quick_key_update : forall (E : env) (L : env_laws E) m (pp : pubparam E) kseed seed n,
  pp_ok pp -> (pp_depth pp <= 32)%nat -> supported (pp_cs pp) -> pp_g2 pp = g2_one -> (32 <= length kseed)%nat ->
  N.of_nat n <= last_time (pp_depth pp) + 1 ->
  let r := test_quick_key_update m pp kseed seed n in
  let hs := in_turn kseed seed n :: singles kseed seed n in
  passes m pp hs r \/ (r = Panic P_ASSERT /\ breaks m pp hs).
Proof.
  intros E L m pp kseed seed n Hpp Hd Hcs Hone Hs Hn r hs. unfold r, test_quick_key_update. clear r.
  destruct (keygen_now L m pp kseed Hpp Hs Hcs) as (pk & sk & pop & Hk & Hr & Ht & _). rewrite Hk. cbn [unwrap bind].
  rewrite (pop_now L pp kseed Hpp pk sk pop Hone Hk). cbn [bind].
  assert (H1 : forall l, incl l (range 2 n) ->
    let r1 := for_each l (fun j => let! sk2 := updated m pp j seed sk in
        let! _ := assert_ (negb (prng_eqb (sec_prng sk) (sec_prng sk2))) in check_ssks m pp pk sk2) in
    passes m pp hs r1 \/ (r1 = Panic P_ASSERT /\ breaks m pp hs)).
  { induction l as [|j l IH]; intros Hi; cbn [for_each]; [left; apply passes_ok|].
    assert (Hj : In j (range 2 n)) by (apply Hi; left; reflexivity).
    pose proof Hj as Hj'. apply range_in in Hj' as (i & Hji & Hin).
    assert (Hb : breaks_at m pp kseed [] seed -> breaks m pp hs).
    { intros Hb. apply (breaks_one m pp (kseed, [OpUpdate j seed])).
      - right. apply in_map_iff. exists j. auto.
      - apply (breaks_here m pp kseed [] (OpUpdate j seed) [] seed eq_refl Hb). }
    destruct (updated_cases L m pp kseed [] pk sk j seed Hpp Hd Hr ltac:(lia)) as [(sk2 & -> & Hu & Hr2 & Ht2)|[-> H]]; cbn [bind].
    - destruct (prng_eqb (sec_prng sk) (sec_prng sk2)) eqn:Eq; cbn [negb assert_ bind].
      + right. split; [reflexivity|]. apply Hb. apply bytes_eqb_eq in Eq.
        apply (reached_same_state L m pp kseed [] pk sk j seed sk2 Hpp Hd Hr Hu). congruence.
      + rewrite (check_ssks_ok L m pp pk sk2 Hpp (reached_reachable _ _ _ _ _ _ Hr2)). cbn [bind].
        apply IH. intros y Hy. apply Hi. right. exact Hy.
    - left. right. split; [reflexivity|apply Hb, H]. }
  specialize (H1 _ (incl_refl _)). cbv zeta in H1. set (r1 := for_each _ _) in *.
  destruct H1 as [[H1|[H1 Hb]]|[H1 Hb]]; rewrite H1; cbn [bind].
  - left. apply (incremental_passes L m pp kseed seed Hpp Hd pk hs (n - 2) 2 n [] sk eq_refl Hn Hr ltac:(lia)). left. reflexivity.
  - left. right. auto.
  - right. auto.
Qed.

Lemma long_key_update : forall (E : env) (L : env_laws E) m (pp : pubparam E) kseed seed n,
  pp_ok pp -> (pp_depth pp <= 32)%nat -> supported (pp_cs pp) -> pp_g2 pp = g2_one -> (32 <= length kseed)%nat ->
  N.of_nat n <= last_time (pp_depth pp) + 1 ->
  passes m pp (singles kseed seed n ++ twos kseed seed n) (test_long_key_update m pp kseed seed n).
Proof.
  intros E L m pp kseed seed n Hpp Hd Hcs Hone Hs Hn. unfold test_long_key_update.
  destruct (keygen_now L m pp kseed Hpp Hs Hcs) as (pk & sk & pop & Hk & Hr & Ht & _). rewrite Hk. cbn [unwrap bind].
  rewrite (pop_now L pp kseed Hpp pk sk pop Hone Hk). cbn [bind].
  apply passes_each. intros j Hj. pose proof Hj as Hj'. apply in_seq in Hj'.
  apply (passes_update L m pp kseed seed Hpp Hd _ [] pk sk (N.of_nat j) _ Hr); [lia| |].
  { apply (more_in kseed (singles kseed seed n) _ (fun l' => [] ++ OpUpdate (N.of_nat j) seed :: l')).
    apply singles_in, range_in. exists j. split; [reflexivity|lia]. }
  intros sk2 _ _ Hr2 Ht2. match goal with |- passes _ _ _ (let! _ := ?f in ?k) => apply (passes_bind m pp _ f (fun _ => k)) end.
  - apply passes_each. intros i Hi. pose proof Hi as Hi'. apply range_in in Hi' as (i' & -> & Hi').
    apply (passes_update L m pp kseed seed Hpp Hd _ _ pk sk2 (N.of_nat i') _ Hr2); [lia| |].
    + cbn [app]. apply (more_in' kseed _ (twos kseed seed n) (fun l' => [OpUpdate (N.of_nat j) seed] ++ OpUpdate (N.of_nat i') seed :: l')).
      apply twos_in; assumption.
    + intros sk3 _ _ Hr3 _. left. apply (check_ssks_ok L m pp pk sk3 Hpp (reached_reachable _ _ _ _ _ _ Hr3)).
  - left. apply (check_ssks_ok L m pp pk sk2 Hpp (reached_reachable _ _ _ _ _ _ Hr2)).
Qed.

Lemma sk_validation : forall (E : env) (L : env_laws E) m (pp : pubparam E) kseed seed n,
  pp_ok pp -> (pp_depth pp <= 32)%nat -> supported (pp_cs pp) -> pp_g2 pp = g2_one -> (32 <= length kseed)%nat ->
  N.of_nat n <= last_time (pp_depth pp) + 1 ->
  passes m pp (singles kseed seed n) (test_sk_validation m pp kseed seed n)
  /\ passes m pp (singles kseed seed n ++ twos kseed seed n) (test_long_sk_validation m pp kseed seed n).
Proof.
  intros E L m pp kseed seed n Hpp Hd Hcs Hone Hs Hn. unfold test_sk_validation, test_long_sk_validation.
  destruct (keygen_now L m pp kseed Hpp Hs Hcs) as (pk & sk & pop & Hk & Hr & Ht & _). rewrite Hk. cbn [unwrap bind].
  rewrite (pop_now L pp kseed Hpp pk sk pop Hone Hk). cbn [bind].
  rewrite (sk_valid L m pp pk sk Hpp (reached_reachable _ _ _ _ _ _ Hr)). cbn [bind]. split.
  - apply (passes_singles L m pp kseed seed Hpp Hd _ pk sk n _ Hr Ht Hn (incl_refl _)). intros j sk2 _ _ Hr2 _.
    left. apply (sk_valid L m pp pk sk2 Hpp (reached_reachable _ _ _ _ _ _ Hr2)).
  - apply passes_each. intros j Hj. pose proof Hj as Hj'. apply in_seq in Hj'.
    apply (passes_update L m pp kseed seed Hpp Hd _ [] pk sk (N.of_nat j) _ Hr); [lia| |].
    { apply (more_in kseed (singles kseed seed n) _ (fun l' => [] ++ OpUpdate (N.of_nat j) seed :: l')).
      apply singles_in, range_in. exists j. split; [reflexivity|lia]. }
    intros sk2 _ _ Hr2 Ht2. rewrite (sk_valid L m pp pk sk2 Hpp (reached_reachable _ _ _ _ _ _ Hr2)). cbn [bind].
    apply passes_each. intros i Hi. pose proof Hi as Hi'. apply range_in in Hi' as (i' & -> & Hi').
    apply (passes_update L m pp kseed seed Hpp Hd _ _ pk sk2 (N.of_nat i') _ Hr2); [lia| |].
    + cbn [app]. apply (more_in' kseed _ (twos kseed seed n) (fun l' => [OpUpdate (N.of_nat j) seed] ++ OpUpdate (N.of_nat i') seed :: l')).
      apply twos_in; assumption.
    + intros sk3 _ _ Hr3 _. left. apply (sk_valid L m pp pk sk3 Hpp (reached_reachable _ _ _ _ _ _ Hr3)).
Qed.

(** * Sub keys *)
Lemma spine_node d k : (k < d)%nat -> node_at d (N.of_nat (S k)) (repeat 1 k).
Proof.
  intros Hk. apply node_at_ptime. split.
  - split; [|rewrite repeat_length; lia]. apply Forall_forall. intros y Hy. apply repeat_spec in Hy. left. exact Hy.
  - rewrite ptime_ones by exact Hk. lia.
Qed.
Lemma delegate_check_ok {E} (L : env_laws E) m (pp : pubparam E) msk r2 t v t' w r cs :
  pp_ok pp -> node_at (pp_depth pp) t v -> node_at (pp_depth pp) t' (v ++ w) -> w <> [] ->
  delegate_check m pp (PubKey cs (g2_mul msk (pp_g2 pp))) r2 t' (honest_ssk pp msk t v r)
  = Ok (honest_ssk pp msk t' (v ++ w) (r + r2)).
Proof.
  intros Hpp Hn Hn' Hw. unfold delegate_check, run_mut.
  rewrite (delegate_honest L m pp msk t v t' w r Hpp Hn Hn' Hw). cbn [unwrap bind].
  rewrite (ssk_validate_honest L) by auto. cbn [assert_true bind].
  rewrite (randomization_honest L) by auto. cbn [unwrap bind]. rewrite (ssk_validate_honest L) by auto. reflexivity.
Qed.
Lemma delegate_steps_ok {E} (L : env_laws E) m (pp : pubparam E) msk r2 cs n : pp_ok pp -> (n <= pp_depth pp + 1)%nat ->
  forall k a r, k = (n - a)%nat -> (2 <= a)%nat ->
  delegate_steps m pp (PubKey cs (g2_mul msk (pp_g2 pp))) r2 (range a n) (honest_ssk pp msk (N.of_nat (a - 1)) (repeat 1 (a - 2)) r) = Ok tt.
Proof.
  intros Hpp Hn. induction k as [|k IH]; intros a r Hk Ha; [rewrite range_nil by lia; reflexivity|].
  rewrite range_cons by lia. cbn [delegate_steps].
  assert (H1 : node_at (pp_depth pp) (N.of_nat (a - 1)) (repeat 1 (a - 2))).
  { replace (a - 1)%nat with (S (a - 2)) by lia. apply spine_node. lia. }
  assert (H2 : node_at (pp_depth pp) (N.of_nat a) (repeat 1 (a - 2) ++ [1])).
  { replace (repeat 1 (a - 2) ++ [1]) with (repeat 1 (a - 1)).
    - replace a with (S (a - 1)) at 1 by lia. apply spine_node. lia.
    - replace (a - 1)%nat with (a - 2 + 1)%nat by lia. apply repeat_app. }
  rewrite (delegate_check_ok L m pp msk r2 _ _ _ [1] r cs Hpp H1 H2) by discriminate. cbn [bind].
  replace (repeat 1 (a - 2) ++ [1]) with (repeat 1 (S a - 2)).
  - replace (N.of_nat a) with (N.of_nat (S a - 1)) by lia. apply IH; lia.
  - replace (S a - 2)%nat with (a - 2 + 1)%nat by lia. apply repeat_app.
Qed.

Lemma subkey_tests : forall (E : env) (L : env_laws E) m (pp : pubparam E) msk r r2 n,
  pp_ok pp -> supported (pp_cs pp) ->
  test_key_gen m pp msk r = Ok tt
  /\ test_randomization m pp msk r r2 = Ok tt
  /\ ((n <= pp_depth pp + 1)%nat -> test_delegate m pp msk r r2 n = Ok tt).
Proof.
  intros E L m pp msk r r2 n Hpp Hcs. apply valid_cs_supported in Hcs. pose proof (ppo_depth pp Hpp) as Hd.
  assert (Hroot : node_at (pp_depth pp) 1 []) by apply (spine_node (pp_depth pp) 0 ltac:(lia)).
  split; [|split].
  - unfold test_key_gen. destruct (init_by_randomization E L m pp (g1_mul msk (pp_h pp)) r Hpp) as (-> & _).
    rewrite (ssk_init_honest L) by exact Hpp. cbn [unwrap bind].
    rewrite (proj2 (l2_eqb E L _ _) eq_refl), (proj2 (l1_eqb E L _ _) eq_refl). cbn [assert_ bind].
    pose proof (ssk_aon (honest_ssk pp msk 1 [] r) true) as Ha. cbn [honest_ssk sk_t] in Ha.
    rewrite (aon_to_vec _ _ Ha). cbn [unwrap bind]. rewrite (proj2 (bytes_eqb_eq _ _) eq_refl). reflexivity.
  - unfold test_randomization, run_mut, pk_init. rewrite Hcs. cbn [negb unwrap bind].
    rewrite (ssk_init_honest L) by exact Hpp. cbn [bind]. rewrite (ssk_validate_honest L) by auto. cbn [assert_true bind].
    rewrite (randomization_honest L) by auto. cbn [unwrap bind]. rewrite (ssk_validate_honest L) by auto. reflexivity.
  - intros Hn. unfold test_delegate, run_mut, pk_init. rewrite Hcs. cbn [negb unwrap bind].
    rewrite (ssk_init_honest L) by exact Hpp. cbn [bind]. rewrite (ssk_validate_honest L) by auto. cbn [assert_true bind].
    rewrite (randomization_honest L) by auto. cbn [unwrap bind]. rewrite (ssk_validate_honest L) by auto. cbn [assert_true bind].
    pose proof (delegate_steps_ok L m pp msk r2 (pp_cs pp) n Hpp Hn (n - 2) 2 (r + r2) eq_refl ltac:(lia)) as Hst.
    change (N.of_nat (2 - 1)) with 1 in Hst. change (repeat 1 (2 - 2)) with (@nil N) in Hst. rewrite Hst. cbn [bind].
    apply for_each_ok. intros i Hi. apply range_in in Hi as (k & -> & Hk).
    rewrite (delegate_check_ok L m pp msk r2 1 [] (N.of_nat k) (repeat 1 (k - 1)) r (pp_cs pp) Hpp Hroot); [reflexivity| |].
    + cbn [app]. replace k with (S (k - 1)) at 1 by lia. apply spine_node. lia.
    + destruct (k - 1)%nat eqn:Ek; [lia|discriminate].
Qed.

(** * Tests that expect an error, master key, getters *)
Lemma negative_tests : forall (E : env) m (pp : pubparam E) kseed (x : G2 E) (y : G1 E),
  negative_test_key_gen pp = Ok tt /\ test_must_fails_seed pp = Ok tt /\ negative_test_pop_cs x y = Ok tt
  /\ (pp_cs pp = 0 -> forall (L : env_laws E), pp_ok pp -> (32 <= length kseed)%nat -> negative_test_sk m pp kseed = Ok tt).
Proof.
  intros E m pp kseed x y. split; [reflexivity|]. split; [reflexivity|]. split; [reflexivity|].
  intros Hcs L Hpp Hs. unfold negative_test_sk.
  assert (Hv : valid_cs (pp_cs pp) = true) by (rewrite Hcs; reflexivity).
  destruct (keygen_ok L m pp kseed Hpp Hv Hs) as (pk & sk & pop & Hk & _ & _ & _ & Hr & Ht). rewrite Hk. cbn [unwrap bind].
  destruct (reachable_good L m pp pk sk Hpp Hr) as (z & _ & _ & Hg & _).
  unfold sk_validate. cbn [pk_cs]. rewrite (gsk_cs _ _ _ Hg), Hcs. reflexivity.
Qed.
Lemma master_test : forall (E : env) (L : env_laws E) (pp : pubparam E) kseed,
  pp_ok pp -> supported (pp_cs pp) -> (32 <= length kseed)%nat -> test_master_key pp kseed = Ok tt.
Proof.
  intros E L pp kseed Hpp Hcs Hs. apply valid_cs_supported in Hcs. unfold test_master_key.
  rewrite (master_key_gen_spec L) by assumption. cbn [unwrap bind].
  unfold validate_master_key. pose proof (ppo_h pp Hpp) as Hh. pose proof (ppo_g2 pp Hpp) as Hg.
  rewrite pairing_check_spec, (lp_prod E L).
  2:{ repeat constructor; cbn [fst snd]; auto using (l2_sub_neg E L), (g1_mul_insub L), (g2_mul_insub L). }
  unfold gt_prod. cbn [fold_right fst snd]. rewrite (gt_one_r L).
  rewrite (pairing_mul_swap L) by assumption. rewrite (lt_comm E L), (pairing_neg_l L) by auto using (g1_mul_insub L).
  rewrite (proj2 (lt_eqb E L _ _) eq_refl). reflexivity.
Qed.
Lemma getter_tests : forall (E : env) (L : env_laws E) (pp : pubparam E) kseed,
  pp_ok pp -> (pp_depth pp <= 32)%nat -> (32 <= length kseed)%nat ->
  (pp_cs pp = 0 -> test_sk_getter pp kseed = Ok tt) /\ (supported (pp_cs pp) -> test_ssk_getter pp kseed = Ok tt).
Proof.
  intros E L pp kseed Hpp Hd Hs. split; intros Hcs.
  - assert (Hv : valid_cs (pp_cs pp) = true) by (rewrite Hcs; reflexivity). unfold test_sk_getter.
    destruct (keygen_ok L Debug pp kseed Hpp Hv Hs) as (pk & sk & pop & Hk & _ & _ & _ & Hr & Ht). rewrite Hk. cbn [unwrap bind].
    destruct (reachable_good L Debug pp pk sk Hpp Hr) as (z & _ & _ & Hg & _).
    rewrite (gsk_cs _ _ _ Hg), Hcs, Ht. cbn [N.eqb Pos.eqb assert_ bind].
    rewrite (reachable_digest E L Debug pp pk sk Hpp Hd Hr). reflexivity.
  - apply valid_cs_supported in Hcs. unfold test_ssk_getter.
    destruct (keygen_ok L Debug pp kseed Hpp Hcs Hs) as (pk & sk & pop & Hk & _ & _ & _ & Hr & Ht). rewrite Hk. cbn [unwrap bind].
    destruct (reachable_good L Debug pp pk sk Hpp Hr) as (z & _ & _ & Hg & _).
    destruct (good_sk_head pp z sk Hg) as (v & r & l & _ & Hl). unfold first_ssk. rewrite Hl. cbn. rewrite Ht. reflexivity.
Qed.

(** * Signatures *)
Lemma sign_bytes_now {E} (L : env_laws E) m (pp : pubparam E) pk sk msg :
  pp_ok pp -> (pp_depth pp <= 32)%nat -> reachable m pp pk sk ->
  exists s, sign_bytes m sk (sec_time sk) pp msg = Ok s /\ wf_sig s /\ sig_time s = sec_time sk /\ verify m s pk pp msg = Ok true.
Proof.
  intros Hpp Hd Hr. destruct (sign_now L m pp pk sk msg Hpp Hd Hr) as (s & Hs & H). exists s. split; [|exact H].
  unfold sign_present, sbind, sget, slift in Hs. rewrite N.eqb_refl in Hs. cbn [negb] in Hs. injection Hs as Hs. exact Hs.
Qed.
Lemma sign_check_ok {E} (L : env_laws E) m (pp : pubparam E) pk sk msg :
  pp_ok pp -> (pp_depth pp <= 32)%nat -> reachable m pp pk sk -> exists s, sign_check m pp pk msg sk = Ok s.
Proof.
  intros Hpp Hd Hr. destruct (sign_bytes_now L m pp pk sk msg Hpp Hd Hr) as (s & Hs & _ & _ & Hv). exists s.
  unfold sign_check. rewrite Hs. cbn [unwrap bind]. rewrite Hv. reflexivity.
Qed.

Lemma signature_tests : forall (E : env) (L : env_laws E) m (pp : pubparam E) kseed msg seed n,
  pp_ok pp -> (pp_depth pp <= 32)%nat -> supported (pp_cs pp) -> pp_g2 pp = g2_one -> (32 <= length kseed)%nat ->
  N.of_nat n <= last_time (pp_depth pp) + 1 ->
  passes m pp (singles kseed seed n) (test_quick_signature_tests m pp kseed msg seed n)
  /\ passes m pp (singles kseed seed n ++ twos kseed seed n) (test_long_signature_tests m pp kseed msg seed n).
Proof.
  intros E L m pp kseed msg seed n Hpp Hd Hcs Hone Hs Hn. unfold test_quick_signature_tests, test_long_signature_tests.
  destruct (keygen_now L m pp kseed Hpp Hs Hcs) as (pk & sk & pop & Hk & Hr & Ht & _). rewrite Hk. cbn [unwrap bind].
  rewrite (pop_now L pp kseed Hpp pk sk pop Hone Hk). cbn [bind].
  destruct (sign_bytes_now L m pp pk sk msg Hpp Hd (reached_reachable _ _ _ _ _ _ Hr)) as (s & Hsig & _ & _ & Hv).
  rewrite Ht in Hsig. rewrite Hsig. cbn [unwrap bind]. rewrite Hv. cbn [assert_true bind]. split.
  - apply (passes_singles L m pp kseed seed Hpp Hd _ pk sk n _ Hr Ht Hn (incl_refl _)). intros j sk2 _ _ Hr2 _.
    destruct (sign_check_ok L m pp pk sk2 msg Hpp Hd (reached_reachable _ _ _ _ _ _ Hr2)) as (s2 & ->). apply passes_ok.
  - apply passes_each. intros j Hj. pose proof Hj as Hj'. apply in_seq in Hj'.
    apply (passes_update L m pp kseed seed Hpp Hd _ [] pk sk (N.of_nat j) _ Hr); [lia| |].
    { apply (more_in kseed (singles kseed seed n) _ (fun l' => [] ++ OpUpdate (N.of_nat j) seed :: l')).
      apply singles_in, range_in. exists j. split; [reflexivity|lia]. }
    intros sk2 _ _ Hr2 Ht2. rewrite (sk_valid L m pp pk sk2 Hpp (reached_reachable _ _ _ _ _ _ Hr2)). cbn [bind].
    match goal with |- passes _ _ _ (let! _ := ?f in ?k) => apply (passes_bind m pp _ f (fun _ => k)) end.
    + apply passes_each. intros i Hi. pose proof Hi as Hi'. apply range_in in Hi' as (i' & -> & Hi').
      apply (passes_update L m pp kseed seed Hpp Hd _ _ pk sk2 (N.of_nat i') _ Hr2); [lia| |].
      * cbn [app]. apply (more_in' kseed _ (twos kseed seed n) (fun l' => [OpUpdate (N.of_nat j) seed] ++ OpUpdate (N.of_nat i') seed :: l')).
        apply twos_in; assumption.
      * intros sk3 _ _ Hr3 _. rewrite (sk_valid L m pp pk sk3 Hpp (reached_reachable _ _ _ _ _ _ Hr3)). cbn [bind].
        destruct (sign_check_ok L m pp pk sk3 msg Hpp Hd (reached_reachable _ _ _ _ _ _ Hr3)) as (s3 & ->). apply passes_ok.
    + destruct (sign_check_ok L m pp pk sk2 msg Hpp Hd (reached_reachable _ _ _ _ _ _ Hr2)) as (s2 & ->). apply passes_ok.
Qed.

(** * The API test *)
Lemma sign_later {E} (L : env_laws E) m (pp : pubparam E) kseed l pk sk msg t seed :
  pp_ok pp -> (pp_depth pp <= 32)%nat -> reached m pp kseed l pk sk -> sec_time sk <= t <= last_time (pp_depth pp) ->
  (exists s sk', sign m t pp msg seed sk = (Ok s, sk') /\ verify m s pk pp msg = Ok true /\ (t = sec_time sk -> sk' = sk))
  \/ (t <> sec_time sk /\ sign m t pp msg seed sk = (Panic P_PRNG, sk) /\ breaks_at m pp kseed l seed).
Proof.
  intros Hpp Hd Hr Ht. destruct (reachable_good L m pp pk sk Hpp (reached_reachable _ _ _ _ _ _ Hr)) as (x & _ & -> & Hg & Hcs).
  pose proof (sign_cases L m pp x sk t msg seed Hpp Hcs Hg) as H. destruct (N.eqb_spec (sec_time sk) t) as [He|He].
  - destruct H as (s & H & Hs). left. exists s, sk. split; [exact H|]. split; [|reflexivity]. apply (good_sig_verifies L m pp x t msg s); auto.
  - unfold in_range in H. replace (sec_time sk <? t) with true in H by lia. replace (t <=? last_time (pp_depth pp)) with true in H by lia.
    cbn [andb] in H. destruct H as [(s & sk' & H & Hs & _)|[H _]].
    + left. exists s, sk'. split; [exact H|]. split; [|congruence]. apply (good_sig_verifies L m pp x t msg s); auto.
    + right. split; [congruence|]. split; [exact H|].
      apply (reached_panic L m m pp kseed l _ sk (OpSign t msg seed) P_PRNG Hpp Hd Hr). cbn [step]. unfold sbind. rewrite H. reflexivity.
Qed.

Lemma api_present_passes {E} (L : env_laws E) m (pp : pubparam E) kseed msg seed pk hs : pp_ok pp -> (pp_depth pp <= 32)%nat ->
  forall k a n l sk, k = (n - a)%nat -> N.of_nat n <= last_time (pp_depth pp) + 1 ->
  reached m pp kseed l pk sk -> sec_time sk < N.of_nat a ->
  In (kseed, l ++ map (fun j => OpUpdate j seed) (range a n)) hs ->
  passes m pp hs (api_present m pp pk msg seed (range a n) sk).
Proof.
  intros Hpp Hd. induction k as [|k IH]; intros a n l sk Hk Hn Hr Ht Hi.
  - rewrite range_nil by lia. apply passes_ok.
  - rewrite range_cons in * by lia. cbn [api_present map] in *.
    destruct (updated_cases L m pp kseed l pk sk (N.of_nat a) seed Hpp Hd Hr ltac:(lia)) as [(sk1 & _ & Hu & Hr1 & Ht1)|[Hu Hb]].
    + unfold mut_ok at 1. rewrite Hu. cbn [bind].
      destruct (sign_later L m pp kseed _ pk sk1 msg (N.of_nat a) seed Hpp Hd Hr1 ltac:(lia)) as [(s & sk2 & H1 & Hv & He)|(Hne & _)]; [|congruence].
      unfold mut_ok at 1. rewrite H1. cbn [bind]. rewrite Hv. cbn [assert_true bind]. rewrite (He ltac:(congruence)).
      apply (IH (S a) n _ sk1 ltac:(lia) Hn Hr1 ltac:(lia)). rewrite snoc_cons. exact Hi.
    + right. unfold updated, run_mut in Hu. unfold mut_ok at 1.
      destruct (update m pp (N.of_nat a) seed sk) as [[u|e|p] sk1]; cbn [unwrap bind] in *; try discriminate Hu. injection Hu as ->.
      split; [reflexivity|]. exists kseed, l, (OpUpdate (N.of_nat a) seed), (map (fun j => OpUpdate j seed) (range (S a) n)). auto.
Qed.

Lemma api_test : forall (E : env) (L : env_laws E) m (pp : pubparam E) kseed msg seed n,
  pp_ok pp -> (pp_depth pp <= 32)%nat -> supported (pp_cs pp) -> pp_g2 pp = g2_one -> (32 <= length kseed)%nat ->
  N.of_nat n <= last_time (pp_depth pp) + 1 ->
  passes m pp (in_turn kseed seed n :: singles kseed seed n) (test_pixel_api m pp kseed msg seed n).
Proof.
  intros E L m pp kseed msg seed n Hpp Hd Hcs Hone Hs Hn. unfold test_pixel_api.
  destruct (keygen_now L m pp kseed Hpp Hs Hcs) as (pk & sk & pop & Hk & Hr & Ht & _). rewrite Hk. cbn [unwrap bind].
  rewrite (pop_now L pp kseed Hpp pk sk pop Hone Hk). cbn [bind].
  assert (H2 : 1 <= last_time (pp_depth pp)).
  { destruct (reachable_good L m pp pk sk Hpp (reached_reachable _ _ _ _ _ _ Hr)) as (x & _ & _ & Hg & _). pose proof (gsk_time _ _ _ Hg). lia. }
  destruct (sign_later L m pp kseed [] pk sk msg 1 seed Hpp Hd Hr ltac:(lia)) as [(s & sk2 & H1 & Hv & He)|(Hne & _)]; [|congruence].
  unfold mut_ok at 1. rewrite H1. cbn [bind]. rewrite Hv. cbn [assert_true bind]. rewrite (He ltac:(congruence)). clear sk2 H1 He.
  match goal with |- passes _ _ _ (let! _ := ?f in ?k) => apply (passes_bind m pp _ f (fun _ => k)) end.
  - apply (api_present_passes L m pp kseed msg seed pk _ Hpp Hd (n - 2) 2 n [] sk eq_refl Hn Hr ltac:(lia)). left. reflexivity.
  - apply passes_each. intros j Hj. pose proof Hj as Hj'. apply range_in in Hj' as (i & Hji & Hin).
    destruct (sign_later L m pp kseed [] pk sk msg j seed Hpp Hd Hr ltac:(lia)) as [(s2 & sk2 & H1 & Hv2 & _)|(_ & H1 & Hb)]; unfold mut_ok; rewrite H1; cbn [bind].
    + left. rewrite Hv2. reflexivity.
    + right. split; [reflexivity|]. apply (breaks_one m pp (kseed, [OpUpdate j seed])).
      * right. apply in_map_iff. exists j. auto.
      * apply (breaks_here m pp kseed [] (OpUpdate j seed) [] seed eq_refl Hb).
Qed.

Lemma time_stamp_test : forall (E : env) (L : env_laws E) m (pp : pubparam E) kseed msg,
  pp_ok pp -> (pp_depth pp <= 32)%nat -> supported (pp_cs pp) -> (32 <= length kseed)%nat -> 10 <= last_time (pp_depth pp) ->
  passes m pp [(kseed, [OpUpdate 10 []])] (test_must_fails_time_stamp m pp kseed msg).
Proof.
  intros E L m pp kseed msg Hpp Hd Hcs Hs Hn. unfold test_must_fails_time_stamp.
  destruct (keygen_now L m pp kseed Hpp Hs Hcs) as (pk & sk & pop & Hk & Hr & Ht & _). rewrite Hk. cbn [unwrap bind].
  assert (Hsp : forall l sk1 t, reached m pp kseed l pk sk1 -> sec_time sk1 <> t -> expect_err (fst (sign_present m t pp msg sk1)) = Ok tt).
  { intros l sk1 t Hr1 Hne. destruct (reachable_good L m pp pk sk1 Hpp (reached_reachable _ _ _ _ _ _ Hr1)) as (x & _ & _ & Hg & Hcs1).
    pose proof (sign_present_cases L m pp x sk1 t msg Hpp Hcs1 Hg) as H. replace (sec_time sk1 =? t) with false in H by lia. rewrite H. reflexivity. }
  rewrite (Hsp _ sk 2 Hr) by lia. cbn [bind].
  destruct (updated_cases L m pp kseed [] pk sk 10 [] Hpp Hd Hr ltac:(lia)) as [(sk1 & _ & Hu & Hr1 & Ht1)|[Hu Hb]].
  - unfold mut_ok at 1. rewrite Hu. cbn [bind for_each].
    rewrite !(Hsp _ sk1 _ Hr1) by lia. cbn [bind].
    destruct (reachable_good L m pp pk sk1 Hpp (reached_reachable _ _ _ _ _ _ Hr1)) as (x & _ & _ & Hg & Hcs1).
    assert (Hsg : forall t, t < 10 -> expect_err (fst (sign m t pp msg [] sk1)) = Ok tt).
    { intros t Hlt. pose proof (sign_cases L m pp x sk1 t msg [] Hpp Hcs1 Hg) as H. replace (sec_time sk1 =? t) with false in H by lia.
      unfold in_range in H. replace (sec_time sk1 <? t) with false in H by lia. cbn [andb] in H. rewrite H. reflexivity. }
    rewrite !Hsg by lia. cbn [bind].
    destruct (sign_later L m pp kseed _ pk sk1 msg 10 [] Hpp Hd Hr1 ltac:(lia)) as [(s & sk2 & H1 & _ & He)|(Hne & _)]; [|congruence].
    unfold mut_ok at 1. rewrite H1. cbn [bind]. rewrite (He ltac:(congruence)).
    assert (Hup : forall t, t <= 10 -> expect_err (fst (update m pp t [] sk1)) = Ok tt).
    { intros t Hle. pose proof (update_cases L m pp x sk1 t [] Hpp Hg) as H. unfold in_range in H.
      replace (sec_time sk1 <? t) with false in H by lia. cbn [andb] in H. rewrite H. reflexivity. }
    rewrite !Hup by lia. apply passes_ok.
  - right. unfold updated, run_mut in Hu. unfold mut_ok at 1.
    destruct (update m pp 10 [] sk) as [[u|e|p] sk1]; cbn [unwrap bind] in *; try discriminate Hu. injection Hu as ->.
    split; [reflexivity|]. apply (breaks_here m pp kseed [] (OpUpdate 10 []) [] [] eq_refl Hb).
Qed.

(** * Aggregation *)
Lemma agg_keys_ok {E} (L : env_laws E) m (pp : pubparam E) : pp_ok pp -> supported (pp_cs pp) -> pp_g2 pp = g2_one ->
  forall kseeds, Forall (fun s => (32 <= length s)%nat) kseeds ->
  exists keys, agg_keys pp kseeds = Ok keys /\ length keys = length kseeds
    /\ Forall (fun k => exists kseed, In kseed kseeds /\ reached m pp kseed [] (fst k) (snd k) /\ sec_time (snd k) = 1 /\ wf_pk (fst k)) keys.
Proof.
  intros Hpp Hcs Hone. induction kseeds as [|kseed kseeds IH]; intros Hf; cbn [agg_keys].
  - exists []. split; [reflexivity|]. split; [reflexivity|]. constructor.
  - inversion_clear Hf as [|x1 x2 Hs Hl].
    destruct (keygen_now L m pp kseed Hpp Hs Hcs) as (pk & sk & pop & Hk & Hr & Ht & Hw & _). rewrite Hk. cbn [unwrap bind].
    rewrite (pop_now L pp kseed Hpp pk sk pop Hone Hk). cbn [bind]. destruct (IH Hl) as (keys & -> & Hlen & Hkeys). cbn [bind].
    exists ((pk, sk) :: keys). split; [reflexivity|]. split; [cbn [length]; lia|]. constructor.
    + exists kseed. split; [left; reflexivity|]. auto.
    + eapply Forall_impl; [|exact Hkeys]. cbn. intros k (ks & Hi & H). exists ks. split; [right; exact Hi|exact H].
Qed.
Lemma agg_sigs_ok {E} (L : env_laws E) m (pp : pubparam E) msg : pp_ok pp -> (pp_depth pp <= 32)%nat ->
  forall keys, Forall (fun k => reachable m pp (fst k) (snd k) /\ sec_time (snd k) = 1 /\ wf_pk (fst k)) keys ->
  exists l, agg_sigs m pp msg keys = Ok (map fst l) /\ map snd l = map fst keys
    /\ Forall (fun sp => verify m (fst sp) (snd sp) pp msg = Ok true /\ sig_time (fst sp) = 1
                         /\ pk_cs (snd sp) = pp_cs pp /\ g2_insub (pk_pk (snd sp)) = true) l.
Proof.
  intros Hpp Hd. induction keys as [|[pk sk] keys IH]; intros Hf; cbn [agg_sigs].
  - exists []. split; [reflexivity|]. split; [reflexivity|constructor].
  - inversion_clear Hf as [|x1 x2 (Hr & Ht & Hw) Hf']. cbn [fst snd] in *.
    destruct (sign_bytes_now L m pp pk sk msg Hpp Hd Hr) as (s & Hs & _ & Hst & Hv). rewrite Ht in Hs, Hst. rewrite Hs. cbn [unwrap bind].
    rewrite Hv. cbn [assert_true bind]. destruct (IH Hf') as (l & -> & Hm & Hl). cbn [bind]. exists ((s, pk) :: l).
    split; [reflexivity|]. split; [cbn [map fst snd]; rewrite Hm; reflexivity|]. constructor; [|exact Hl]. cbn [fst snd].
    split; [exact Hv|]. split; [exact Hst|]. destruct (reachable_good L m pp pk sk Hpp Hr) as (x & _ & Hpk & _). split.
    + rewrite Hpk. reflexivity.
    + rewrite Hpk. cbn [pk_pk]. apply (g2_mul_insub L), (ppo_g2 pp Hpp).
Qed.

Lemma aggregation_tests : forall (E : env) (L : env_laws E) m (pp : pubparam E) kseeds msg seed n,
  pp_ok pp -> (pp_depth pp <= 32)%nat -> supported (pp_cs pp) -> pp_g2 pp = g2_one ->
  kseeds <> [] -> Forall (fun s => (32 <= length s)%nat) kseeds -> N.of_nat n <= last_time (pp_depth pp) + 1 ->
  passes m pp (flat_map (fun kseed => singles kseed seed n) kseeds) (test_aggregated_signature_tests m pp kseeds msg seed n).
Proof.
  intros E L m pp kseeds msg seed n Hpp Hd Hcs Hone Hne Hs Hn. unfold test_aggregated_signature_tests.
  destruct (agg_keys_ok L m pp Hpp Hcs Hone kseeds Hs) as (keys & -> & Hlen & Hkeys). cbn [bind].
  destruct (agg_sigs_ok L m pp msg Hpp Hd keys) as (l & -> & Hm & Hl).
  { eapply Forall_impl; [|exact Hkeys]. cbn. intros k (ks & _ & Hr & H). split; [apply (reached_reachable _ _ _ _ _ _ Hr)|exact H]. }
  cbn [bind]. assert (Hl0 : l <> []).
  { intros ->. cbn [map] in Hm. destruct keys; [|discriminate Hm]. destruct kseeds; [contradiction|discriminate Hlen]. }
  assert (Hagg : agg_check_all m pp msg (map fst keys) (map fst l) = Ok tt).
  { destruct (aggregate_verifies E L m m pp l 1 msg Hpp Hl0 Hl) as (s & Ha & Hv). unfold agg_check_all. rewrite Ha. cbn [unwrap bind].
    rewrite <- Hm, Hv. reflexivity. }
  rewrite Hagg. cbn [bind]. apply passes_each. intros j Hj. pose proof Hj as Hj'. apply range_in in Hj' as (i & Hji & Hin).
  match goal with |- passes _ _ _ (let! _ := ?f in ?k) => apply (passes_bind m pp _ f (fun _ => k)) end; [|left; reflexivity].
  apply passes_each. intros [pk sk] Hk. rewrite Forall_forall in Hkeys. destruct (Hkeys _ Hk) as (kseed & Hi & Hr & Ht & _). cbn [fst snd] in *.
  apply (passes_update L m pp kseed seed Hpp Hd _ [] pk sk j _ Hr); [lia| |].
  - destruct (singles_in kseed seed n j Hj) as (l' & H'). exists l'. apply in_flat_map. exists kseed. auto.
  - intros sk2 _ _ Hr2 _. destruct (sign_check_ok L m pp pk sk2 msg Hpp Hd (reached_reachable _ _ _ _ _ _ Hr2)) as (s2 & ->). apply passes_ok.
Qed.

(** * Serialization *)
Lemma save_load_ok {A} ser len (de : st reader A) eqb b a :
  to_vec ser = Ok b -> length b = len -> from_slice de b = Ok a -> eqb a = true -> save_load ser len de eqb = Ok tt.
Proof. intros H1 <- H2 H3. unfold save_load. rewrite H1. cbn [unwrap bind]. rewrite Nat.eqb_refl. cbn [assert_ bind]. rewrite H2. cbn [unwrap bind]. rewrite H3. reflexivity. Qed.

Lemma point_tests : forall (E : env) (L : env_laws E) (l1 : list (G1 E)) (l2 : list (G2 E)),
  (Forall (fun x => g1_insub x = true) l1 -> test_g1_serialization_rand l1 = Ok tt)
  /\ (Forall (fun x => g2_insub x = true) l2 -> test_g2_serialization_rand l2 = Ok tt).
Proof.
  intros E L l1 l2. split; intros Hf; rewrite Forall_forall in Hf; apply for_each_ok; intros c _; apply for_each_ok; intros x Hx.
  - apply (save_load_ok _ _ _ _ (g1_enc c x) x).
    + apply aon_to_vec. intros w. reflexivity.
    + rewrite (lc1_len E L). destruct c; reflexivity.
    + rewrite (parses_slice (fun _ => True) _ _ _ I (parses_g1 _ rclass_any c)).
      rewrite <- (app_nil_r (g1_enc c x)), (p_g1_app L) by (apply Hf, Hx). reflexivity.
    + apply (l1_eqb E L). reflexivity.
  - apply (save_load_ok _ _ _ _ (g2_enc c x) x).
    + apply aon_to_vec. intros w. reflexivity.
    + rewrite (lc2_len E L). destruct c; reflexivity.
    + rewrite (parses_slice (fun _ => True) _ _ _ I (parses_g2 _ rclass_any c)).
      rewrite <- (app_nil_r (g2_enc c x)), (p_g2_app L) by (apply Hf, Hx). reflexivity.
    + apply (l2_eqb E L). reflexivity.
Qed.

Lemma serdes_tests : forall (E : env) (L : env_laws E) m (pp : pubparam E) kseed msg msk r,
  pp_ok pp -> (pp_depth pp <= 32)%nat -> supported (pp_cs pp) -> pp_g2 pp = g2_one -> (32 <= length kseed)%nat ->
  test_ssk_serialization_rand pp msk r = Ok tt
  /\ test_pk_serialization_rand pp kseed = Ok tt
  /\ test_signature_serialization_rand m pp kseed msg = Ok tt.
Proof.
  intros E L m pp kseed msg msk r Hpp Hd Hcs Hone Hs. split; [|split].
  - unfold test_ssk_serialization_rand. rewrite (ssk_init_honest L) by exact Hpp. cbn [bind].
    set (s := honest_ssk pp msk 1 [] r).
    assert (Hw : wf_ssk s).
    { apply (honest_wf L pp msk s Hpp Hd). exists [], r. split; [|reflexivity].
      pose proof (ppo_depth pp Hpp). apply (spine_node (pp_depth pp) 0). lia. }
    apply (save_load_ok _ _ _ _ (ssk_blob true s) s).
    + apply aon_to_vec. apply (ssk_aon s true).
    + rewrite (ssk_blob_len L). reflexivity.
    + rewrite (parses_slice calm _ _ _ (calm_slice _) (parses_ssk true)).
      rewrite <- (app_nil_r (ssk_blob true s)), (p_ssk_blob L) by exact Hw. reflexivity.
    + apply (ssk_eqb_iff L). reflexivity.
  - unfold test_pk_serialization_rand.
    destruct (keygen_now L m pp kseed Hpp Hs Hcs) as (pk & sk & pop & Hk & Hr & Ht & Hw & _). rewrite Hk. cbn [unwrap bind].
    rewrite (pop_now L pp kseed Hpp pk sk pop Hone Hk). cbn [bind]. destruct (pk_roundtrip E L true pk Hw) as (H1 & H2 & _).
    apply (save_load_ok _ _ _ _ (pk_blob true pk) pk H1 H2).
    + apply (slice_pk L true pk Hw).
    + apply (pubkey_equality E L). reflexivity.
  - unfold test_signature_serialization_rand.
    destruct (keygen_now L m pp kseed Hpp Hs Hcs) as (pk & sk & pop & Hk & Hr & Ht & _). rewrite Hk. cbn [unwrap bind].
    rewrite (pop_now L pp kseed Hpp pk sk pop Hone Hk). cbn [bind].
    destruct (sign_bytes_now L m pp pk sk msg Hpp Hd (reached_reachable _ _ _ _ _ _ Hr)) as (s & Hsig & Hw & _ & Hv).
    rewrite Ht in Hsig. rewrite Hsig. cbn [unwrap bind]. rewrite Hv. cbn [assert_true bind].
    destruct (sig_roundtrip E L s Hw) as (H1 & H2 & _). apply (save_load_ok _ _ _ _ (sig_blob true s) s H1 H2).
    + apply (slice_sig L s Hw).
    + apply (signature_equality E L). auto.
Qed.

Lemma sk_size_check_ok {E} (L : env_laws E) m (pp : pubparam E) pk sk : pp_ok pp -> (pp_depth pp <= 32)%nat -> reachable m pp pk sk ->
  sk_size_check m pp (sec_time sk) sk = Ok tt.
Proof.
  intros Hpp Hd Hr. unfold sk_size_check. destruct (key_size_estimate E L m m pp pk sk Hpp Hr) as [-> _]. cbn [unwrap bind].
  rewrite Nat.eqb_refl. cbn [assert_ bind]. pose proof (reachable_sk_representable E L m pp pk sk Hpp Hd Hr) as Hw.
  destruct (sk_roundtrip E L true sk Hw) as (H1 & H2 & _). apply (save_load_ok _ _ _ _ (sk_blob true sk) sk H1 H2).
  - apply (slice_sk L true sk Hw).
  - apply (seckey_equality E L). reflexivity.
Qed.
Lemma sk_serdes_test : forall (E : env) (L : env_laws E) m (pp : pubparam E) kseed seed n,
  pp_ok pp -> (pp_depth pp <= 32)%nat -> supported (pp_cs pp) -> pp_g2 pp = g2_one -> (32 <= length kseed)%nat ->
  N.of_nat n <= last_time (pp_depth pp) + 1 ->
  passes m pp (singles kseed seed n) (test_sk_serialization_rand m pp kseed seed n).
Proof.
  intros E L m pp kseed seed n Hpp Hd Hcs Hone Hs Hn. unfold test_sk_serialization_rand.
  destruct (keygen_now L m pp kseed Hpp Hs Hcs) as (pk & sk & pop & Hk & Hr & Ht & _). rewrite Hk. cbn [unwrap bind].
  rewrite (pop_now L pp kseed Hpp pk sk pop Hone Hk). cbn [bind].
  pose proof (sk_size_check_ok L m pp pk sk Hpp Hd (reached_reachable _ _ _ _ _ _ Hr)) as H1. rewrite Ht in H1. rewrite H1. cbn [bind].
  apply (passes_singles L m pp kseed seed Hpp Hd _ pk sk n _ Hr Ht Hn (incl_refl _)). intros j sk2 _ _ Hr2 Ht2.
  rewrite (sk_valid L m pp pk sk2 Hpp (reached_reachable _ _ _ _ _ _ Hr2)). cbn [bind]. left. rewrite <- Ht2.
  apply (sk_size_check_ok L m pp pk sk2 Hpp Hd (reached_reachable _ _ _ _ _ _ Hr2)).
Qed.

(** * The C interface *)
Lemma ffi_basic : forall (E : env) (L : env_laws E) m (pp : pubparam E) seed msg n,
  pp_ok pp -> (pp_depth pp <= 32)%nat -> supported (pp_cs pp) -> pp_g2 pp = g2_one -> (32 <= length seed)%nat ->
  N.of_nat n <= last_time (pp_depth pp) + 1 ->
  passes m pp (singles seed seed n) (test_pixel_ffi_basic m pp seed msg n).
Proof.
  intros E L m pp seed msg n Hpp Hd Hcs Hone Hs Hn. unfold test_pixel_ffi_basic. pose proof Hcs as Hcs'. apply valid_cs_supported in Hcs'.
  assert (Hest : exists k, c_estimate_sk_size m 1 c_get_depth = Ok k) by (destruct m; eexists; vm_compute; reflexivity).
  destruct Hest as (k & ->). cbn [bind].
  destruct (c_keygen_now L m pp seed Hpp Hd Hcs' Hs) as (pk & sk & pop & Hk & Hw & Hwp & _ & _ & Ht & ->). cbn [bind].
  pose proof (reached_keygen m pp seed pk sk pop Hk) as Hr. pose proof (reached_reachable _ _ _ _ _ _ Hr) as Hr'.
  rewrite (c_verify_pop_blobs E L pk pop Hw Hwp), (keygen_pop E L pp seed pk sk pop Hpp Hone Hk). cbn [assert_true bind].
  destruct (c_sign_now L m pp pk sk msg Hpp Hd Hw Hr') as (s & _ & _ & _ & H1 & H2). rewrite Ht in H1. rewrite H1. cbn [bind].
  rewrite H2. cbn [assert_true bind]. apply passes_each. intros j Hj. pose proof Hj as Hj'. apply range_in in Hj' as (i & Hji & Hin).
  rewrite (c_update_blobs E L m m pp pk sk j seed Hpp Hd Hr').
  destruct (updated_cases L m pp seed [] pk sk j seed Hpp Hd Hr ltac:(lia)) as [(sk1 & _ & Hu & Hr1 & Ht1)|[Hu Hb]].
  - rewrite Hu. cbn [bind]. destruct (c_sign_now L m pp pk sk1 msg Hpp Hd Hw (reached_reachable _ _ _ _ _ _ Hr1)) as (s1 & _ & _ & _ & H3 & H4).
    rewrite Ht1 in H3. rewrite H3. cbn [bind]. rewrite H4. apply passes_ok.
  - right. unfold updated, run_mut in Hu.
    destruct (update m pp j seed sk) as [[u|e|p] sk1]; cbn [unwrap bind] in *; try discriminate Hu. injection Hu as ->.
    split; [reflexivity|]. apply (breaks_one m pp (seed, [OpUpdate j seed])).
    + apply in_map_iff. exists j. auto.
    + apply (breaks_here m pp seed [] (OpUpdate j seed) [] seed eq_refl Hb).
Qed.
Lemma ffi_aggregation : forall (E : env) (L : env_laws E) m (pp : pubparam E) seed1 seed2 msg,
  pp_ok pp -> (pp_depth pp <= 32)%nat -> supported (pp_cs pp) -> (32 <= length seed1)%nat -> (32 <= length seed2)%nat ->
  test_pixel_ffi_aggregation m pp seed1 seed2 msg = Ok tt.
Proof.
  intros E L m pp seed1 seed2 msg Hpp Hd Hcs Hs1 Hs2. unfold test_pixel_ffi_aggregation. apply valid_cs_supported in Hcs.
  destruct (c_keygen_now L m pp seed1 Hpp Hd Hcs Hs1) as (pk1 & sk1 & pop1 & _ & Hw1 & _ & Hc1 & Hr1 & Ht1 & ->). cbn [bind].
  destruct (c_keygen_now L m pp seed2 Hpp Hd Hcs Hs2) as (pk2 & sk2 & pop2 & _ & Hw2 & _ & Hc2 & Hr2 & Ht2 & ->). cbn [bind].
  destruct (c_sign_now L m pp pk1 sk1 msg Hpp Hd Hw1 Hr1) as (s1 & _ & Hws1 & Hst1 & H1 & V1). rewrite Ht1 in H1, Hst1. rewrite H1. cbn [bind].
  destruct (c_sign_now L m pp pk2 sk2 msg Hpp Hd Hw2 Hr2) as (s2 & _ & Hws2 & Hst2 & H2 & V2). rewrite Ht2 in H2, Hst2. rewrite H2. cbn [bind].
  destruct (c_aggregate_verifies E L m pp [(sig_blob true s1, pk_blob true pk1); (sig_blob true s2, pk_blob true pk2)] msg 1 Hpp) as (b & Ha & _ & Hv).
  - discriminate.
  - constructor; [|constructor; [|constructor]]; cbn [fst]; apply (sig_blob_bytes L); assumption.
  - assert (Hone : forall (pk : pubkey E) (s : signature E), wf_pk pk -> wf_sig s -> pk_cs pk = pp_cs pp -> sig_time s = 1 ->
       (forall k : pubkey E, from_slice (pk_deserialize true) (pk_blob true pk) = Ok k -> pk_cs k = pp_cs pp /\ g2_insub (pk_pk k) = true)
       /\ (forall x : signature E, from_slice (sig_deserialize true) (sig_blob true s) = Ok x -> sig_time x = 1)).
    { intros pk s Hw Hws Hc Ht. split.
      - intros k. rewrite (slice_pk L true pk Hw). intros [= <-]. split; [exact Hc|apply Hw].
      - intros x. rewrite (slice_sig L s Hws). intros [= <-]. exact Ht. }
    constructor; [|constructor; [|constructor]]; cbn [fst snd]; (split; [assumption|apply Hone; assumption]).
  - cbn [map fst snd] in Ha, Hv. rewrite Ha. cbn [bind]. rewrite Hv. reflexivity.
Qed.

(** * Signatures under other keys, parameters and messages *)
Lemma second_part_insub {E} (L : env_laws E) (pp : pubparam E) x k v msg : pp_ok pp -> g1_insub (second_part pp x k v msg) = true.
Proof.
  intros Hpp. apply (l1_sub_add E L); apply (g1_mul_insub L); [apply Hpp|apply (sig_val_insub L), Hpp].
Qed.
Lemma verify_second {E} (L : env_laws E) m (pp : pubparam E) s pk msg x k :
  pp_ok pp -> pp_g2 pp = g2_one -> pk_pk pk = g2_mul x g2_one -> sig_1 s = g2_mul k g2_one ->
  (verify m s pk pp msg = Ok true <->
   supported (pp_cs pp) /\ sig_cs s = pp_cs pp
   /\ exists v, node_at (pp_depth pp) (sig_time s) v /\ sig_2 s = second_part pp x k v msg).
Proof.
  intros Hpp Hg Hx Hk. assert (Hone : g2_insub (@g2_one E) = true) by (rewrite <- Hg; apply Hpp).
  rewrite (verify_spec L) by (try exact Hpp; rewrite Hx; apply (g2_mul_insub L), Hone).
  rewrite <- valid_cs_supported, Hx, Hk, Hg. split.
  - intros (Hc & Hs & _ & H2 & v & Hn & He). split; [exact Hc|]. split; [exact Hs|]. exists v. split; [exact Hn|].
    rewrite <- (pairing_honest L) in He; auto; [|apply (sig_val_insub L), Hpp|apply Hpp].
    apply (pairing_inj_r L) in He; auto.
    + apply (second_part_insub L pp x k v msg Hpp).
    + apply (l2_one_nz E L).
  - intros (Hc & Hs & v & Hn & He). split; [exact Hc|]. split; [exact Hs|]. split; [apply (g2_mul_insub L), Hone|].
    rewrite He. split; [apply (second_part_insub L), Hpp|]. exists v. split; [exact Hn|].
    unfold second_part. rewrite (pairing_honest L); auto; [apply (sig_val_insub L), Hpp|apply Hpp].
Qed.
Lemma accepted_elsewhere : forall (E : env) (L : env_laws E) m m' (pp pp' : pubparam E) s pk pk' msg msg' x x' k v,
  pp_ok pp -> pp_ok pp' -> pp_g2 pp = g2_one -> pp_g2 pp' = g2_one ->
  pk_pk pk = g2_mul x g2_one -> pk_pk pk' = g2_mul x' g2_one -> sig_1 s = g2_mul k g2_one ->
  node_at (pp_depth pp) (sig_time s) v -> verify m s pk pp msg = Ok true ->
  (verify m' s pk' pp' msg' = Ok true <->
   pp_cs pp' = pp_cs pp
   /\ exists v', node_at (pp_depth pp') (sig_time s) v' /\ second_part pp' x' k v' msg' = second_part pp x k v msg).
Proof.
  intros E L m m' pp pp' s pk pk' msg msg' x x' k v Hpp Hpp' Hg Hg' Hx Hx' Hk Hn Hv.
  apply (verify_second L m pp s pk msg x k Hpp Hg Hx Hk) in Hv as (Hc & Hs & v0 & Hn0 & H2).
  rewrite (node_at_fun _ _ _ _ Hn0 Hn) in H2.
  rewrite (verify_second L m' pp' s pk' msg' x' k Hpp' Hg' Hx' Hk). split.
  - intros (_ & Hs' & v' & Hn' & H2'). split; [congruence|]. exists v'. split; [exact Hn'|congruence].
  - intros (He & v' & Hn' & H2'). rewrite He. split; [exact Hc|]. split; [exact Hs|]. exists v'. split; [exact Hn'|congruence].
Qed.

Definition decides (f : res unit) (P : Prop) : Prop := (f = Ok tt \/ f = Panic P_ASSERT) /\ (f = Ok tt <-> P).
Lemma decides_not b f P : decides f P -> decides (let! _ := assert_ (negb b) in f) (b = false /\ P).
Proof. intros [H1 H2]. destruct b; cbn [negb assert_ bind]; split; try tauto; split; [discriminate|intros [H _]; discriminate H]. Qed.
Lemma decides_last r (Q : Prop) : (exists b, r = Ok b) /\ (r = Ok true <-> Q) -> decides (assert_false r) (~ Q).
Proof.
  intros ((b & ->) & Hb). destruct b; cbn [assert_false bind negb assert_]; split; auto; split; auto; try discriminate.
  - intros H. destruct H. apply Hb. reflexivity.
  - intros _ Hq. apply Hb in Hq. discriminate Hq.
Qed.
Lemma decides_false r (Q : Prop) f P : (exists b, r = Ok b) /\ (r = Ok true <-> Q) -> decides f P ->
  decides (let! _ := assert_false r in f) (~ Q /\ P).
Proof.
  intros Hr [H1 H2]. destruct (decides_last r Q Hr) as [[Hl|Hl] Hi]; rewrite Hl in Hi |- *; cbn [bind]; split; try tauto.
  split; [discriminate|]. intros [H _]. apply Hi in H. discriminate H.
Qed.

Lemma mismatch_test : forall (E : env) (L : env_laws E) m (pp1 pp3 : pubparam E) kseed1 kseed2 kseed3 msg1 msg2
  pk1 sk1 pop1 pk2 sk2 pop2 pk3 sk3 pop3 s11 s12 s21 s22 x1 x2 k11 k12 k21 k22,
  pp_ok pp1 -> pp_ok pp3 -> (pp_depth pp1 <= 32)%nat -> pp_g2 pp1 = g2_one -> pp_g2 pp3 = g2_one ->
  key_gen kseed1 pp1 = Ok (pk1, sk1, pop1) -> key_gen kseed2 pp1 = Ok (pk2, sk2, pop2) -> key_gen kseed3 pp3 = Ok (pk3, sk3, pop3) ->
  pk_pk pk1 = g2_mul x1 g2_one -> pk_pk pk2 = g2_mul x2 g2_one ->
  sign_bytes m sk1 1 pp1 msg1 = Ok s11 -> sign_bytes m sk1 1 pp1 msg2 = Ok s12 ->
  sign_bytes m sk2 1 pp1 msg1 = Ok s21 -> sign_bytes m sk2 1 pp1 msg2 = Ok s22 ->
  sig_1 s11 = g2_mul k11 g2_one -> sig_1 s12 = g2_mul k12 g2_one -> sig_1 s21 = g2_mul k21 g2_one -> sig_1 s22 = g2_mul k22 g2_one ->
  let r := test_must_fails_mismatch m pp1 pp3 kseed1 kseed2 kseed3 msg1 msg2 in
  let other pp x k msg pp' x' msg' := pp_cs pp' = pp_cs pp /\ second_part pp' x' k [] msg' = second_part pp x k [] msg in
  (r = Ok tt \/ r = Panic P_ASSERT)
  /\ (r = Ok tt <->
      (pk_validate pk1 pop2 = false /\ pk_validate pk1 pop3 = false /\ pk_validate pk2 pop1 = false
       /\ pk_validate pk2 pop3 = false /\ pk_validate pk3 pop1 = false /\ pk_validate pk3 pop2 = false)
      /\ ~ other pp1 x1 k11 msg1 pp1 x2 msg1 /\ ~ other pp1 x1 k11 msg1 pp3 x1 msg1
      /\ ~ other pp1 x1 k11 msg1 pp1 x1 msg2 /\ ~ other pp1 x1 k12 msg2 pp1 x1 msg1
      /\ ~ other pp1 x2 k21 msg1 pp1 x1 msg1 /\ ~ other pp1 x2 k21 msg1 pp3 x1 msg1
      /\ ~ other pp1 x2 k21 msg1 pp1 x1 msg2 /\ ~ other pp1 x2 k22 msg2 pp1 x1 msg1).
Proof.
  intros E L m pp1 pp3 kseed1 kseed2 kseed3 msg1 msg2 pk1 sk1 pop1 pk2 sk2 pop2 pk3 sk3 pop3 s11 s12 s21 s22 x1 x2 k11 k12 k21 k22
    Hpp1 Hpp3 Hd Hg1 Hg3 Hk1 Hk2 Hk3 Hx1 Hx2 Hs11 Hs12 Hs21 Hs22 H11 H12 H21 H22 r other.
  unfold r, test_must_fails_mismatch. rewrite Hk1, Hk2, Hk3. cbn [unwrap bind].
  rewrite (keygen_pop E L pp1 kseed1 pk1 sk1 pop1 Hpp1 Hg1 Hk1), (keygen_pop E L pp1 kseed2 pk2 sk2 pop2 Hpp1 Hg1 Hk2),
    (keygen_pop E L pp3 kseed3 pk3 sk3 pop3 Hpp3 Hg3 Hk3). cbn [assert_ bind].
  rewrite Hs11, Hs12, Hs21, Hs22. cbn [unwrap bind].
  assert (Hsig : forall kseed pk sk pop msg s, key_gen kseed pp1 = Ok (pk, sk, pop) -> sign_bytes m sk 1 pp1 msg = Ok s ->
     verify m s pk pp1 msg = Ok true /\ sig_time s = 1).
  { intros kseed pk sk pop msg s Hk Hs.
    assert (Ht : sec_time sk = 1) by (destruct (keygen_fields E L pp1 kseed pk sk pop Hk) as (H & _); exact H).
    destruct (sign_bytes_now L m pp1 pk sk msg Hpp1 Hd (reached_reachable _ _ _ _ _ _ (reached_keygen m pp1 kseed pk sk pop Hk))) as (s' & Hs' & _ & Hst & Hv).
    rewrite Ht in Hs', Hst. rewrite Hs in Hs'. injection Hs' as <-. auto. }
  assert (Hoth : forall kseed pk sk pop msg s x k pp' pk' x' msg', key_gen kseed pp1 = Ok (pk, sk, pop) -> sign_bytes m sk 1 pp1 msg = Ok s ->
     pk_pk pk = g2_mul x g2_one -> sig_1 s = g2_mul k g2_one -> pp_ok pp' -> pp_g2 pp' = g2_one -> pk_pk pk' = g2_mul x' g2_one ->
     (exists b, verify m s pk' pp' msg' = Ok b) /\ (verify m s pk' pp' msg' = Ok true <-> other pp1 x k msg pp' x' msg')).
  { intros kseed pk sk pop msg s x k pp' pk' x' msg' Hk Hs Hx Hks Hpp' Hg' Hx'. split; [apply (verify_total E L); exact Hpp'|].
    destruct (Hsig _ _ _ _ _ _ Hk Hs) as [Hv Ht].
    assert (Hn : forall pp : pubparam E, pp_ok pp -> node_at (pp_depth pp) 1 []).
    { intros pp Hpp. pose proof (ppo_depth pp Hpp). apply (spine_node (pp_depth pp) 0). lia. }
    rewrite (accepted_elsewhere E L m m pp1 pp' s pk pk' msg msg' x x' k [] Hpp1 Hpp' Hg1 Hg' Hx Hx' Hks ltac:(rewrite Ht; apply Hn, Hpp1) Hv).
    rewrite Ht. unfold other. split.
    - intros (Hc & v' & Hn' & He). rewrite (node_at_fun _ _ _ _ Hn' (Hn pp' Hpp')) in He. auto.
    - intros (Hc & He). split; [exact Hc|]. exists []. split; [apply Hn, Hpp'|exact He]. }
  destruct (Hsig _ _ _ _ _ _ Hk1 Hs11) as [-> _]. destruct (Hsig _ _ _ _ _ _ Hk2 Hs21) as [-> _]. cbn [assert_true bind].
  match goal with |- (?f = _ \/ _) /\ (_ <-> (_ /\ _ /\ _ /\ _ /\ _ /\ _) /\ ?Q) =>
    assert (Hdec : decides f (pk_validate pk1 pop2 = false /\ pk_validate pk1 pop3 = false /\ pk_validate pk2 pop1 = false
       /\ pk_validate pk2 pop3 = false /\ pk_validate pk3 pop1 = false /\ pk_validate pk3 pop2 = false /\ Q)) end.
  { do 6 apply decides_not.
    apply decides_false; [apply (Hoth _ _ _ _ _ _ _ _ pp1 pk2 x2 _ Hk1 Hs11 Hx1 H11 Hpp1 Hg1 Hx2)|].
    apply decides_false; [apply (Hoth _ _ _ _ _ _ _ _ pp3 pk1 x1 _ Hk1 Hs11 Hx1 H11 Hpp3 Hg3 Hx1)|].
    apply decides_false; [apply (Hoth _ _ _ _ _ _ _ _ pp1 pk1 x1 _ Hk1 Hs11 Hx1 H11 Hpp1 Hg1 Hx1)|].
    apply decides_false; [apply (Hoth _ _ _ _ _ _ _ _ pp1 pk1 x1 _ Hk1 Hs12 Hx1 H12 Hpp1 Hg1 Hx1)|].
    apply decides_false; [apply (Hoth _ _ _ _ _ _ _ _ pp1 pk1 x1 _ Hk2 Hs21 Hx2 H21 Hpp1 Hg1 Hx1)|].
    apply decides_false; [apply (Hoth _ _ _ _ _ _ _ _ pp3 pk1 x1 _ Hk2 Hs21 Hx2 H21 Hpp3 Hg3 Hx1)|].
    apply decides_false; [apply (Hoth _ _ _ _ _ _ _ _ pp1 pk1 x1 _ Hk2 Hs21 Hx2 H21 Hpp1 Hg1 Hx1)|].
    apply decides_last. apply (Hoth _ _ _ _ _ _ _ _ pp1 pk1 x1 _ Hk2 Hs22 Hx2 H22 Hpp1 Hg1 Hx1). }
  destruct Hdec as [H1 H2]. split; [exact H1|]. rewrite H2. tauto.
Qed.
