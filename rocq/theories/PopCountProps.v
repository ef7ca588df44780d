(** Counting for Properties_Pop.v. *)
From Coq Require Import Permutation ListDec.
From Coq Require Import ZifyBool ZifyN ZifyNat.
From Verif Require Import Base Env SpecTime Prng SpecPrng PrngFacts SubKey SecretKey Keys Sig SpecKey SpecUpdate
  SpecRed SpecMulti SpecRom SpecPop RedProps MultiProps RomProps CountProps PopProps.
Local Open Scope N_scope.

Lemma split_at (i : nat) (l : list N) : (i < length l)%nat -> l = firstn i l ++ nth i l 0 :: skipn (S i) l.
Proof.
  revert l. induction i as [|i IH]; intros [|x l] H; cbn [length] in H; try lia; [reflexivity|]. cbn [firstn nth skipn app]. f_equal. apply IH. lia.
Qed.
Lemma app_inv_len {A} (a b a' b' : list A) : length a = length a' -> a ++ b = a' ++ b' -> a = a' /\ b = b'.
Proof.
  revert a'. induction a as [|x a IH]; intros [|x' a'] Hl He; try discriminate Hl; [auto|]. cbn [app length] in *. injection He as -> He. injection Hl as Hl.
  destruct (IH a' Hl He) as [-> ->]. auto.
Qed.
Lemma zero_count k i : (i <= k)%nat -> at_most (fun l => scalars (S k) l /\ nth i l 0 = 0) (fr_modulus ^ N.of_nat k).
Proof.
  intros Hi. apply (at_most_inj (fun l => firstn i l ++ skipn (S i) l) _ (scalars k)); [| |apply scalars_count].
  - intros l [[Hl Hf] _]. split.
    + rewrite app_length, firstn_length, skipn_length. lia.
    + apply Forall_app. rewrite (split_at i l) in Hf by lia. apply Forall_app in Hf as [H1 H2]. inversion H2; subst. auto.
  - intros l l' [[Hl _] H0] [[Hl' _] H0'] He.
    apply app_inv_len in He as [H1 H2]; [|rewrite !firstn_length; lia].
    rewrite (split_at i l), (split_at i l') by lia. rewrite H0, H0', H1, H2. reflexivity.
Qed.

Definition flat (z : pcoins) : list N := let '(y, ys, rs, _, zs) := z in y :: ys ++ rs ++ zs.
Definition hashes_of (z : pcoins) : list bytes := let '(_, _, _, hs, _) := z in hs.
Definition spot (d n j : nat) : nat := match j with O => O | S j' => (d + 2 + n + j')%nat end.
Lemma flat_ok d n q p z : pcoins_any d n q p z -> scalars (d + 2 + n + p) (flat z) /\ hashes q (hashes_of z).
Proof.
  destruct z as [[[[y ys] rs] hs] zs]. intros [((Hy & [Hl1 H1] & [Hl2 H2]) & Hh) [Hl3 H3]]. cbn [flat fst snd hashes_of] in *. split; [|exact Hh].
  split; [cbn [length]; rewrite !app_length; lia|]. constructor; [exact Hy|]. apply Forall_app. split; [exact H1|]. apply Forall_app. auto.
Qed.
Lemma flat_inj d n q p z z' : pcoins_any d n q p z -> pcoins_any d n q p z' -> flat z = flat z' -> hashes_of z = hashes_of z' -> z = z'.
Proof.
  destruct z as [[[[y ys] rs] hs] zs], z' as [[[[y' ys'] rs'] hs'] zs'].
  intros [((_ & [Hl1 _] & [Hl2 _]) & _) _] [((_ & [Hl1' _] & [Hl2' _]) & _) _] He Hh. cbn [flat hashes_of] in *. injection He as -> He.
  apply app_inv_len in He as [-> He]; [|congruence]. apply app_inv_len in He as [-> ->]; [|congruence]. subst hs'. reflexivity.
Qed.
Lemma spot_count d n q p j : (j < p + 1)%nat ->
  at_most (fun z => pcoins_any d n q p z /\ nth (spot d n j) (flat z) 0 = 0) (fr_modulus ^ N.of_nat (d + 1 + n + p) * (256 ^ 64) ^ N.of_nat q).
Proof.
  intros Hj.
  apply (at_most_fibres (list_eq_dec bytes_dec) hashes_of _ (hashes q)); [| |exact (hashes_count q)].
  - intros z [Hz _]. exact (proj2 (flat_ok _ _ _ _ _ Hz)).
  - intros t. assert (Hs : (spot d n j <= d + 1 + n + p)%nat) by (destruct j; cbn [spot]; lia).
    apply (at_most_inj flat _ _ _ ) with (3 := zero_count (d + 1 + n + p) (spot d n j) Hs).
    + intros z [[Hz H0] _]. split; [|exact H0]. replace (S (d + 1 + n + p)) with (d + 2 + n + p)%nat by lia. exact (proj1 (flat_ok _ _ _ _ _ Hz)).
    + intros z z' [[Hz _] Ht] [[Hz' _] Ht'] He. apply (flat_inj d n q p); auto. congruence.
Qed.
Lemma zeros_count d n q p :
  at_most (fun z => pcoins_any d n q p z /\ (~ h_nonzero z \/ ~ Forall (fun e => 0 < e < fr_modulus) (snd z)))
    (N.of_nat (p + 1) * (fr_modulus ^ N.of_nat (d + 1 + n + p) * (256 ^ 64) ^ N.of_nat q)).
Proof.
  set (K := fr_modulus ^ N.of_nat (d + 1 + n + p) * (256 ^ 64) ^ N.of_nat q).
  apply (at_most_le _ (fun z => exists j, (j < p + 1)%nat /\ ((j < p + 1)%nat /\ pcoins_any d n q p z /\ nth (spot d n j) (flat z) 0 = 0)) (N.of_nat (p + 1) * K)); [|lia|].
  - intros [[[[y ys] rs] hs] zs] [Hz Hb]. pose proof Hz as [((_ & [Hl1 _] & [Hl2 _]) & _) [Hl3 H3]]. cbn [fst snd h_nonzero flat] in *.
    destruct Hb as [Hb|Hb].
    + exists 0%nat. split; [lia|]. split; [lia|]. split; [exact Hz|]. cbn [spot nth]. destruct (N.eq_dec y 0) as [H|H]; [exact H|contradiction].
    + assert (Hin : In 0 zs).
      { destruct (in_dec N.eq_dec 0 zs) as [Hi|Hi]; [exact Hi|]. exfalso. apply Hb. apply Forall_forall. intros e He. rewrite Forall_forall in H3. specialize (H3 e He). cbv beta in H3.
        split; [|exact H3]. destruct (N.eq_dec e 0) as [->|Hne]; [contradiction|lia]. }
      apply (In_nth _ _ 0) in Hin as (j & Hj & Hn). exists (S j). split; [lia|]. split; [lia|]. split; [exact Hz|].
      replace (spot d n (S j)) with (S (d + 1 + (n + j))) by (cbn [spot]; lia). cbn [nth]. rewrite app_nth2 by lia. replace (d + 1 + (n + j) - length ys)%nat with (n + j)%nat by lia.
      rewrite app_nth2 by lia. replace (n + j - length rs)%nat with j by lia. exact Hn.
  - apply at_most_exists. intros j. destruct (Nat.lt_ge_cases j (p + 1)) as [Hj|Hj].
    + apply (at_most_le _ _ K K (fun z H => proj2 H)); [lia|exact (spot_count d n q p j Hj)].
    + intros [|w ws] _ Hf; [cbn; lia|]. inversion Hf as [|? ? (Hj' & _)]. lia.
Qed.
Lemma repeats_count_p d n q p :
  at_most (fun z : pcoins => pcoins_any d n q p z /\ ~ NoDup (map scalar_of (snd (fst z)))) (repeats_bound d n q * fr_modulus ^ N.of_nat p).
Proof.
  rewrite N.mul_comm.
  assert (Hdec : forall y y' : hcoins, {y = y'} + {y <> y'}).
  { decide equality; [apply (list_eq_dec bytes_dec)|]. decide equality; [apply bytes_dec|]. decide equality; [apply bytes_dec|apply N.eq_dec]. }
  apply (at_most_fibres Hdec fst _ (fun z : hcoins => hcoins_any d n q z /\ ~ NoDup (map scalar_of (snd z)))); [| |apply repeats_count].
  - intros z [[Hz _] Hn]. auto.
  - intros t. apply (at_most_inj snd _ (scalars p)); [| |apply scalars_count].
    + intros z [[[_ Hz] _] _]. exact Hz.
    + intros [z u] [z' u'] [_ Ht] [_ Ht'] He. cbn [fst snd] in *. congruence.
Qed.

Lemma pop_all_coins : forall (E : env) (L : env_laws E) m (g : G1 E) d cs a b adv n q p ws,
  g1_insub g = true -> (1 <= d < 64)%nat -> (1 <= q)%nat ->
  NoDup ws -> Forall (fun z => pcoins_any d n q p z /\ pwins m g d cs a adv z) ws ->
  exists tx i zs, 1 <= tx <= last_time d /\ (i < q)%nat
    /\ N.of_nat (length ws) <= last_time d * N.of_nat q * N.of_nat (length zs) + lost_bound d n q p /\ NoDup zs
    /\ Forall (fun z => pcoins_ok d n q p z /\ psolve (challenge_for g d a b) d cs tx i adv z = Some (solution g d a b)) zs.
Proof.
  intros E L m g d cs a b adv n q p ws Hg Hd Hq Hn Hf.
  assert (Hs : exists us vs, Permutation ws (us ++ vs) /\ Forall (fun z => pcoins_ok d n q p z /\ h_nonzero z /\ pwins m g d cs a adv z) us
            /\ Forall (fun z : pcoins => (pcoins_any d n q p z /\ ~ NoDup (map scalar_of (snd (fst z))))
                 \/ (pcoins_any d n q p z /\ (~ h_nonzero z \/ ~ Forall (fun e => 0 < e < fr_modulus) (snd z)))) vs).
  { clear Hn. induction Hf as [|z ws [Hz Hw] _ (us & vs & Hp & Hu & Hv)]; [exists [], []; repeat split; constructor|].
    assert (Hc : (pcoins_ok d n q p z /\ h_nonzero z) \/ ((pcoins_any d n q p z /\ ~ NoDup (map scalar_of (snd (fst z))))
                 \/ (pcoins_any d n q p z /\ (~ h_nonzero z \/ ~ Forall (fun e => 0 < e < fr_modulus) (snd z))))).
    { destruct (ListDec.NoDup_dec N.eq_dec (map scalar_of (snd (fst z)))) as [Hnd|Hnd]; [|right; left; auto].
      destruct (Forall_dec (fun e => 0 < e < fr_modulus)) with (l := snd z) as [Hp0|Hp0].
      { intros e. destruct (N.ltb 0 e) eqn:Q1; [|right; lia]. destruct (N.ltb e fr_modulus) eqn:Q2; [left; lia|right; lia]. }
      2:{ right. right. auto. }
      destruct z as [[[[y ys] rs] hs] zs]. cbn [h_nonzero fst snd] in *. destruct (N.eq_dec y 0) as [H0|H0]; [right; right; auto|]. left. split; [|exact H0].
      destruct Hz as [(H1 & H2 & H3) [H4 H5]]. cbn [fst snd] in *. split; [cbn [fst hcoins_ok]; auto|]. cbn [snd]. auto. }
    destruct Hc as [[H1 H2]|Hc].
    - exists (z :: us), vs. split; [cbn; constructor; exact Hp|]. split; [|exact Hv]. constructor; auto.
    - exists us, (z :: vs). split; [apply Permutation_cons_app; exact Hp|]. split; [exact Hu|]. constructor; auto. }
  destruct Hs as (us & vs & Hp & Hu & Hv). pose proof (Permutation_NoDup Hp Hn) as Hn2. destruct (nodup_parts _ _ Hn2) as [Nu Nv].
  destruct (pop_forger_solves E L m g d cs a b adv n q p us Hg Hd Hq Nu Hu) as (tx & i & zs & Htx & Hi & Hl & Nz & Fz).
  exists tx, i, zs. split; [exact Htx|]. split; [exact Hi|]. split; [|split; assumption].
  rewrite (Permutation_length Hp), app_length, Nat2N.inj_add. pose proof (at_most_or _ _ _ _ (repeats_count_p d n q p) (zeros_count d n q p) vs Nv Hv) as Hb.
  apply N.add_le_mono; [exact Hl|exact Hb].
Qed.

Lemma lost_rare : forall d n q p, exists all : list pcoins,
  NoDup all /\ (forall z, In z all <-> pcoins_any d n q p z)
  /\ lost_bound d n q p * fr_modulus <= N.of_nat (q * (q - 1) + p + 1) * N.of_nat (length all).
Proof.
  intros d n q p. destruct (repeats_rare d n q) as (hall & Hn & Hi & Hl).
  assert (Hlen : N.of_nat (length hall) = fr_modulus ^ N.of_nat (d + 2 + n) * (256 ^ 64) ^ N.of_nat q).
  { rewrite <- all_coins_length. f_equal. apply Permutation_length, NoDup_Permutation; [exact Hn|apply all_coins_nodup|]. intros z. rewrite Hi, all_coins_in. tauto. }
  assert (Hall : exists all : list pcoins, NoDup all /\ (forall z, In z all <-> pcoins_any d n q p z) /\ N.of_nat (length all) = N.of_nat (length hall) * fr_modulus ^ N.of_nat p).
  { exists (list_prod hall (words (numbers fr_modulus) p)). split; [apply prod_nodup; [exact Hn|apply words_nodup, numbers_nodup]|]. split.
    - intros [z u]. etransitivity; [exact (in_prod_iff hall (words (numbers fr_modulus) p) z u)|]. rewrite Hi, words_in. unfold pcoins_any. cbn [fst snd].
      split; intros [H1 [H2 H3]]; (split; [exact H1|]; split; [exact H2|]; eapply Forall_impl; [|exact H3]; intros x Hx; apply numbers_in, Hx).
    - etransitivity; [exact (f_equal N.of_nat (prod_length hall (words (numbers fr_modulus) p)))|]. rewrite Nat2N.inj_mul, words_length, numbers_length. reflexivity. }
  destruct Hall as (all & Ha1 & Ha2 & Ha3). exists all. split; [exact Ha1|]. split; [exact Ha2|]. rewrite Ha3. clear all Ha1 Ha2 Ha3.
  unfold lost_bound.
    replace (d + 2 + n)%nat with (S (d + 1 + n)) in Hlen by lia. rewrite Nat2N.inj_succ, N.pow_succ_r in Hlen by lia.
    replace (N.of_nat (d + 1 + n + p)) with (N.of_nat (d + 1 + n) + N.of_nat p) by lia. rewrite N.pow_add_r.
    replace (N.of_nat (q * (q - 1) + p + 1)) with (N.of_nat (q * (q - 1)) + N.of_nat (p + 1)) by lia.
    revert Hl Hlen. generalize (fr_modulus ^ N.of_nat p) (repeats_bound d n q) (N.of_nat (q * (q - 1))) (N.of_nat (length hall)) (N.of_nat (p + 1)) (fr_modulus ^ N.of_nat (d + 1 + n)) ((256 ^ 64) ^ N.of_nat q). intros F R T H P X Y. generalize fr_modulus.
    clear. intros M Hl ->.
    rewrite !N.mul_add_distr_r. apply N.add_le_mono; [|apply N.eq_le_incl; ring].
    replace (R * F * M) with (R * M * F) by ring. replace (T * (M * X * Y * F)) with (T * (M * X * Y) * F) by ring. apply N.mul_le_mono_r, Hl.
Qed.
