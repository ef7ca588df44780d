(** Proofs for C129. *)
From Verif Require Import Base Env GroupFacts BenchCurve SpecBenchCurve.
From Coq Require Import ZifyBool ZifyNat ZifyN.
Local Open Scope N_scope.

Lemma put_length {A} (a : A) : forall l i, length (put_at i a l) = length l.
Proof. induction l as [|x l IH]; intros [|i]; cbn; auto. Qed.
Lemma put_same {A} (a : A) : forall l i, (i < length l)%nat -> nth_error (put_at i a l) i = Some a.
Proof. induction l as [|x l IH]; intros [|i] Hi; cbn in *; [lia|lia|reflexivity|apply IH; lia]. Qed.
Lemma put_other {A} (a : A) : forall l i j, i <> j -> nth_error (put_at i a l) j = nth_error l j.
Proof. induction l as [|x l IH]; intros [|i] [|j] Hij; cbn; try congruence. apply IH. congruence. Qed.
Lemma get_at_ok {A} (l : list A) i : (i < length l)%nat -> exists x, nth_error l i = Some x /\ nth_res l i = Ok x.
Proof. intros Hi. unfold nth_res. destruct (nth_error l i) as [x|] eqn:H; [eauto|]. apply nth_error_None in H. lia. Qed.
Lemma next_mod s j : s <> 0%nat -> next_counter s (j mod s) = Ok (S j mod s)%nat.
Proof.
  intros Hs. unfold next_counter. destruct s as [|s]; [congruence|]. f_equal.
  rewrite Nat.add_mod_idemp_l by discriminate. f_equal. lia.
Qed.
Lemma uses_S s n i : uses s (S n) i = (uses s n i + if Nat.eqb (n mod s) i then 1 else 0)%nat.
Proof.
  unfold uses. rewrite seq_S, filter_app, app_length. cbn [filter Nat.add]. destruct (Nat.eqb (n mod s) i); reflexivity.
Qed.

(** The runs [j], [j + 1], .. *)
Lemma run_mul_from {A} (mul : N -> A -> A) (rs : list N) (s : nat) : s <> 0%nat -> length rs = s ->
  (forall a b x, mul (a * b) x = mul a (mul b x)) ->
  forall n j l, length l = s ->
  exists l', run_mul mul rs n l (j mod s) = Ok (l', (j + n) mod s)%nat /\ length l' = s
    /\ forall i r x, nth_error rs i = Some r -> nth_error l i = Some (mul (r ^ N.of_nat (uses s j i)) x) ->
         nth_error l' i = Some (mul (r ^ N.of_nat (uses s (j + n) i)) x).
Proof.
  intros Hs Hr Hm. induction n as [|n IH]; intros j l Hl; cbn [run_mul].
  - exists l. rewrite Nat.add_0_r. auto.
  - assert (Hj : (j mod s < s)%nat) by (apply Nat.mod_upper_bound, Hs).
    destruct (get_at_ok l (j mod s)) as (x0 & Hx & ->); [lia|]. destruct (get_at_ok rs (j mod s)) as (r0 & Hr0 & ->); [lia|].
    cbn [bind]. rewrite Hr, next_mod by exact Hs. cbn [bind].
    destruct (IH (S j) (put_at (j mod s) (mul r0 x0) l)) as (l' & -> & Hl' & H); [rewrite put_length; exact Hl|].
    exists l'. replace (S j + n)%nat with (j + S n)%nat in * by lia. split; [reflexivity|]. split; [exact Hl'|].
    intros i r x Hri Hli. apply H; [exact Hri|]. rewrite uses_S. destruct (Nat.eqb_spec (j mod s) i) as [<-|Hne].
    + rewrite put_same by lia. rewrite Hx in Hli. injection Hli as ->. rewrite Hr0 in Hri. injection Hri as ->.
      rewrite Nat2N.inj_add, N.pow_add_r, N.pow_1_r, N.mul_comm, Hm. reflexivity.
    + rewrite put_other by exact Hne. rewrite Nat.add_0_r. exact Hli.
Qed.
Lemma run_read_from {A B} (f : A -> res B) (g : A -> B) (l : list A) : l <> [] -> (forall x, In x l -> f x = Ok (g x)) ->
  forall n j, exists r, run_read f l n (j mod length l) = Ok r /\ length r = n
    /\ forall k, (k < n)%nat -> nth_error r k = option_map g (sample l (j + k)).
Proof.
  intros Hl Hf. assert (Hs : length l <> 0%nat) by (destruct l; [congruence|discriminate]).
  induction n as [|n IH]; intros j; cbn [run_read].
  - exists []. split; [reflexivity|]. split; [reflexivity|]. lia.
  - assert (Hj : (j mod length l < length l)%nat) by (apply Nat.mod_upper_bound, Hs).
    destruct (get_at_ok l _ Hj) as (x & Hx & ->). cbn [bind]. rewrite (Hf x) by (eapply nth_error_In, Hx). cbn [bind].
    rewrite next_mod by exact Hs. cbn [bind]. destruct (IH (S j)) as (r & -> & Hr & H). cbn [bind].
    exists (g x :: r). split; [reflexivity|]. split; [cbn; lia|]. intros [|k] Hk.
    + rewrite Nat.add_0_r. unfold sample. rewrite Hx. reflexivity.
    + cbn [nth_error]. rewrite H by lia. do 2 f_equal. lia.
Qed.
Lemma run_read_ok {A B} (f : A -> res B) (g : A -> B) (l : list A) n : l <> [] -> (forall x, In x l -> f x = Ok (g x)) ->
  exists r, run_read f l n 0 = Ok r /\ read_off g l n r.
Proof.
  intros Hl Hf. destruct (run_read_from f g l Hl Hf n 0) as (r & H1 & H2 & H3). exists r.
  rewrite Nat.mod_0_l in H1 by (destruct l; [congruence|discriminate]). split; [exact H1|]. split; [exact H2|]. exact H3.
Qed.

Lemma curve_multiplication : forall (E : env) (L : env_laws E) (draws : list (G1 E * G2 E * N)) n1 n2, draws <> [] ->
  exists l1 l2, bench_group_multiplication draws n1 n2 = Ok (l1, l2)
  /\ length l1 = length draws /\ length l2 = length draws
  /\ forall i x y r, nth_error draws i = Some (x, y, r) ->
       nth_error l1 i = Some (g1_mul (r ^ N.of_nat (uses (length draws) n1 i)) x)
       /\ nth_error l2 i = Some (g2_mul (r ^ N.of_nat (uses (length draws) n2 i)) y).
Proof.
  intros E L draws n1 n2 Hd. assert (Hs : length draws <> 0%nat) by (destruct draws; [congruence|discriminate]).
  unfold bench_group_multiplication. cbv zeta.
  destruct (run_mul_from g1_mul (map snd draws) (length draws) Hs (map_length _ _) (l1_mul_mul E L) n1 0 (map (fun d => fst (fst d)) draws) (map_length _ _)) as (l1 & E1 & N1 & H1).
  destruct (run_mul_from g2_mul (map snd draws) (length draws) Hs (map_length _ _) (l2_mul_mul E L) n2 0 (map (fun d => snd (fst d)) draws) (map_length _ _)) as (l2 & E2 & N2 & H2).
  rewrite Nat.mod_0_l in E1, E2 by exact Hs. rewrite E1. cbn [bind]. rewrite E2. cbn [bind]. exists l1, l2. split; [reflexivity|].
  split; [exact N1|]. split; [exact N2|]. intros i x y r Hi.
  split; [apply H1|apply H2]; rewrite nth_error_map, Hi; cbn [option_map fst snd]; try reflexivity; unfold uses; cbn [seq filter length]; rewrite N.pow_0_r;
    [rewrite (l1_mul1 E L)|rewrite (l2_mul1 E L)]; reflexivity.
Qed.
Lemma curve_membership : forall (E : env) (draws : list (G1 E * G2 E)) n1 n2, draws <> [] ->
  exists b1 b2, bench_membership_testing draws n1 n2 = Ok (b1, b2)
  /\ read_off (fun d => g1_insub (fst d)) draws n1 b1 /\ read_off (fun d => g2_insub (snd d)) draws n2 b2.
Proof.
  intros E draws n1 n2 Hd. unfold bench_membership_testing.
  assert (Hm1 : map fst draws <> []) by (destruct draws; [congruence|discriminate]). assert (Hm2 : map snd draws <> []) by (destruct draws; [congruence|discriminate]).
  destruct (run_read_ok (fun x => Ok (g1_insub x)) g1_insub (map fst draws) n1 Hm1 ltac:(reflexivity)) as (b1 & -> & Hn1 & H1).
  destruct (run_read_ok (fun x => Ok (g2_insub x)) g2_insub (map snd draws) n2 Hm2 ltac:(reflexivity)) as (b2 & -> & Hn2 & H2).
  cbn [bind]. exists b1, b2. split; [reflexivity|]. split; split; auto; intros j Hj; [rewrite (H1 j Hj)|rewrite (H2 j Hj)]; unfold sample; rewrite map_length, nth_error_map;
    destruct (nth_error draws _); reflexivity.
Qed.
Lemma curve_pairing : forall (E : env) (L : env_laws E) (draws : list (pair_draw E)) n1 n2 n3, draws <> [] -> Forall good_draw draws ->
  let e1 d := pairing (d11 d) (d21 d) in let e2 d := pairing (d12 d) (d22 d) in let e3 d := pairing (d13 d) (d23 d) in
  exists p1 p2 p3, bench_pairing draws n1 n2 n3 = Ok (p1, p2, p3)
  /\ read_off e1 draws n1 p1
  /\ read_off (fun d => gt_mul (e1 d) (e2 d)) draws n2 p2
  /\ read_off (fun d => gt_mul (e1 d) (gt_mul (e2 d) (e3 d))) draws n3 p3.
Proof.
  intros E L draws n1 n2 n3 Hd Hg e1 e2 e3. rewrite Forall_forall in Hg. unfold bench_pairing.
  assert (Hone : forall x : GT E, gt_mul x gt_one = x) by (intros x; rewrite (lt_comm E L); apply (lt_one E L)).
  destruct (run_read_ok (fun d => pair_all [(d11 d, d21 d)]) e1 draws n1 Hd) as (p1 & -> & H1).
  { intros d Hi. destruct (Hg d Hi) as (? & ? & ? & ? & ? & ?). unfold pair_all. rewrite (lp_prod E L) by (repeat constructor; assumption).
    cbn. rewrite Hone. reflexivity. }
  destruct (run_read_ok (fun d => pair_all [(d11 d, d21 d); (d12 d, d22 d)]) (fun d => gt_mul (e1 d) (e2 d)) draws n2 Hd) as (p2 & -> & H2).
  { intros d Hi. destruct (Hg d Hi) as (? & ? & ? & ? & ? & ?). unfold pair_all. rewrite (lp_prod E L) by (repeat constructor; assumption).
    cbn. rewrite Hone. reflexivity. }
  destruct (run_read_ok (fun d => pair_all [(d11 d, d21 d); (d12 d, d22 d); (d13 d, d23 d)]) (fun d => gt_mul (e1 d) (gt_mul (e2 d) (e3 d))) draws n3 Hd) as (p3 & -> & H3).
  { intros d Hi. destruct (Hg d Hi) as (? & ? & ? & ? & ? & ?). unfold pair_all. rewrite (lp_prod E L) by (repeat constructor; assumption).
    cbn. rewrite Hone. reflexivity. }
  cbn [bind]. exists p1, p2, p3. auto.
Qed.
(** A sample is used once in every round. *)
Lemma uses_even : forall s n i, (i < s)%nat -> (uses s n i = (n + (s - 1 - i)) / s)%nat.
Proof.
  intros s n i Hi. induction n as [|n IH].
  - cbn. symmetry. apply Nat.div_small. lia.
  - rewrite uses_S, IH. pose proof (Nat.div_mod n s ltac:(lia)) as Hn. pose proof (Nat.mod_upper_bound n s ltac:(lia)) as Hb.
    set (q := (n / s)%nat) in *. set (k := (n mod s)%nat) in *. clearbody q k. clear IH.
    assert (D : forall a b, (a < s)%nat -> ((a + b * s) / s = b)%nat) by (intros a b Ha; rewrite Nat.div_add, Nat.div_small by lia; reflexivity).
    assert (Hqs : ((q + 1) * s = s * q + s)%nat) by ring. assert (Hq : (q * s = s * q)%nat) by ring.
    destruct (Nat.eqb_spec k i) as [He|He].
    + replace (n + (s - 1 - i))%nat with (s - 1 + q * s)%nat by lia. replace (S n + (s - 1 - i))%nat with (0 + (q + 1) * s)%nat by lia.
      rewrite !D by lia. reflexivity.
    + destruct (Nat.lt_ge_cases k i) as [Hlt|Hge].
      * replace (n + (s - 1 - i))%nat with (k + (s - 1 - i) + q * s)%nat by lia. replace (S n + (s - 1 - i))%nat with (S k + (s - 1 - i) + q * s)%nat by lia.
        rewrite !D by lia. lia.
      * replace (n + (s - 1 - i))%nat with (k - i - 1 + (q + 1) * s)%nat by lia. replace (S n + (s - 1 - i))%nat with (k - i + (q + 1) * s)%nat by lia.
        rewrite !D by lia. lia.
Qed.
