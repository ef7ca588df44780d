(** Lemmas behind Properties_Red.v: the reduction. *)
From Coq Require Import ZArith Znumtheory.
From Verif Require Import Base Env NMod GroupFacts Time SpecTime TimeFacts TimeProps Hkdf Prng SpecPrng PrngFacts
  SubKey SecretKey Keys Sig SpecKey SubKeyFacts SpecUpdate UpdateFacts KeyFacts SpecLin LinProps Primality HistoryFacts Api KeyProps VerProps SpecSig SpecRed.
From Coq Require Import ZifyBool ZifyNat ZifyN.
Local Open Scope N_scope.
Local Arguments N.add : simpl never.
Local Arguments N.mul : simpl never.
Local Arguments N.sub : simpl never.
Local Arguments N.pow : simpl never.
Local Arguments pow2 : simpl never.

(** * Inverses *)
Lemma egcd_ok : forall n f a b, (2 * n <= f)%nat -> (0 <= b <= a)%Z -> (a < 2 ^ Z.of_nat n)%Z ->
  (fst (egcd f a b) * a + snd (egcd f a b) * b = Z.gcd a b)%Z.
Proof.
  induction n as [|n IH]; intros f a b Hf Hb Ha.
  - change (2 ^ Z.of_nat 0)%Z with 1%Z in Ha. assert (a = 0 /\ b = 0)%Z as [-> ->] by lia.
    destruct f as [|f]; reflexivity.
  - destruct f as [|[|f]]; [lia|lia|]. cbn [egcd]. destruct (Z.eqb_spec b 0) as [->|Hb0].
    { cbn [fst snd]. rewrite Z.gcd_0_r. lia. }
    pose proof (Z.mod_pos_bound a b ltac:(lia)) as Hm. pose proof (Z.div_mod a b Hb0) as Hd.
    assert (Hg : Z.gcd a b = Z.gcd b (a mod b)) by (rewrite (Z.gcd_comm b (a mod b)), Z.gcd_mod by lia; apply Z.gcd_comm).
    destruct (Z.eqb_spec (a mod b) 0) as [Hz|Hz].
    { cbn [fst snd]. rewrite Hg, Hz, Z.gcd_0_r. lia. }
    assert (Hsmall : (a mod b < 2 ^ Z.of_nat n)%Z).
    { rewrite Nat2Z.inj_succ, Z.pow_succ_r in Ha by lia. assert (1 <= a / b)%Z by (apply Z.div_le_lower_bound; lia). nia. }
    pose proof (Z.mod_pos_bound b (a mod b) ltac:(lia)) as Hm2.
    assert (Hg2 : Z.gcd b (a mod b) = Z.gcd (a mod b) (b mod (a mod b))) by (rewrite (Z.gcd_comm (a mod b) (b mod (a mod b))), Z.gcd_mod by lia; apply Z.gcd_comm).
    pose proof (Z.div_mod b (a mod b) Hz) as Hd2.
    specialize (IH f (a mod b)%Z (b mod (a mod b))%Z ltac:(lia) ltac:(lia) Hsmall).
    destruct (egcd f (a mod b) (b mod (a mod b))) as [u v]. cbn [fst snd] in *. rewrite Hg, Hg2, <- IH.
    set (m := (a mod b)%Z) in *. set (q := (a / b)%Z) in *. set (m2 := (b mod m)%Z) in *. set (q2 := (b / m)%Z) in *.
    clear - Hd Hd2. clearbody m q m2 q2. rewrite Hd at 1. rewrite Hd2. ring.
Qed.
Notation r := (Z.of_N fr_modulus).
Lemma fr_inv_ok a : a mod fr_modulus <> 0 -> exists q, (Z.of_N (fr_inv a) * Z.of_N a = 1 + q * r)%Z.
Proof.
  intros Ha. unfold fr_inv. assert (Hr : (0 < r)%Z) by reflexivity.
  assert (Hlt : a mod fr_modulus < fr_modulus) by (apply N.mod_lt; discriminate).
  assert (Hsz : (r < 2 ^ Z.of_nat 256)%Z) by reflexivity.
  pose proof (egcd_ok 256 512 r (Z.of_N (a mod fr_modulus)) ltac:(lia) ltac:(lia) Hsz) as H.
  destruct (egcd 512 r (Z.of_N (a mod fr_modulus))) as [u v]. cbn [fst snd] in *.
  assert (Hg : Z.gcd r (Z.of_N (a mod fr_modulus)) = 1%Z).
  { apply Zgcd_1_rel_prime. apply prime_rel_prime; [apply fr_prime|]. intros Hd. apply Z.divide_pos_le in Hd; [lia|]. lia. }
  rewrite Hg in H. rewrite Z2N.id by (apply Z.mod_pos_bound; exact Hr).
  assert (Hv : (v mod r = v - r * (v / r))%Z) by (rewrite (Z.mod_eq v r) by lia; reflexivity). rewrite Hv.
  assert (Hq : (Z.of_N (a mod fr_modulus) = Z.of_N a - r * Z.of_N (a / fr_modulus))%Z).
  { pose proof (N.div_mod a fr_modulus ltac:(discriminate)) as Hd. lia. }
  rewrite Hq in H. exists (- u + v * Z.of_N (a / fr_modulus) - (v / r) * Z.of_N a)%Z.
  set (A := Z.of_N a) in *. set (Q := Z.of_N (a / fr_modulus)) in *. set (V := (v / r)%Z) in *. clearbody A Q V.
  replace ((v - r * V) * A)%Z with (u * r + v * (A - r * Q) - u * r + v * r * Q - r * V * A)%Z by ring. rewrite H. ring.
Qed.
Lemma minus_ok b : exists q, (Z.of_N (minus b) = - Z.of_N b + q * r)%Z.
Proof.
  unfold minus. pose proof (N.div_mod b fr_modulus ltac:(discriminate)) as Hd. assert (b mod fr_modulus < fr_modulus) by (apply N.mod_lt; discriminate).
  exists (1 + Z.of_N (b / fr_modulus))%Z. rewrite N2Z.inj_sub by lia. lia.
Qed.
Lemma cong_q a b q : (Z.of_N a - Z.of_N b = q * r)%Z -> cong a b.
Proof. intros H. exists q. exact H. Qed.
Lemma cong_mul {E} (L : env_laws E) (g : G1 E) a b : g1_insub g = true -> cong a b -> g1_mul a g = g1_mul b g.
Proof.
  intros Hg [q Hq]. rewrite (mul_mod L g a Hg), (mul_mod L g b Hg). f_equal.
  apply N2Z.inj. rewrite !N2Z.inj_mod. replace (Z.of_N a) with (Z.of_N b + q * r)%Z by lia. apply Z_mod_plus_full.
Qed.
Lemma mul_mod2 {E} (L : env_laws E) (g : G2 E) a : g2_insub g = true -> g2_mul a g = g2_mul (a mod fr_modulus) g.
Proof.
  intros Hg. rewrite (N.div_mod a fr_modulus) at 1 by discriminate.
  rewrite (l2_mul_add E L), N.mul_comm, (l2_mul_mul E L), (l2_order E L g Hg). rewrite (nm_mulz _ _ _ (nmod_g2 L)), (l2_zero E L). reflexivity.
Qed.
Lemma cong_mul2 {E} (L : env_laws E) (g : G2 E) a b : g2_insub g = true -> cong a b -> g2_mul a g = g2_mul b g.
Proof.
  intros Hg [q Hq]. rewrite (mul_mod2 L g a Hg), (mul_mod2 L g b Hg). f_equal.
  apply N2Z.inj. rewrite !N2Z.inj_mod. replace (Z.of_N a) with (Z.of_N b + q * r)%Z by lia. apply Z_mod_plus_full.
Qed.

(** * Scalars of the simulated elements *)
Lemma dotp_dot u : forall v, dotp u v = dot u v.
Proof. induction u as [|a u IH]; intros [|b v]; cbn [dotp dot]; rewrite ?IH; reflexivity. Qed.
Fixpoint pows (a : N) (n : nat) : list N := match n with O => [] | S k => a ^ N.of_nat n :: pows a k end.
Lemma pows_length a n : length (pows a n) = n.
Proof. induction n; cbn; auto. Qed.
Lemma pows_skip a : forall k n, skipn k (pows a n) = pows a (n - k).
Proof.
  induction k as [|k IH]; intros n; [rewrite Nat.sub_0_r; reflexivity|]. destruct n as [|n]; [reflexivity|]. cbn [pows skipn]. rewrite IH. reflexivity.
Qed.
Lemma dot_shift a s : forall e n, (length e <= n)%nat -> dot e (pows a (n + s)) = a ^ N.of_nat s * dot e (pows a n).
Proof.
  induction e as [|x e IH]; intros n H; cbn [length] in H.
  - destruct (pows a (n + s)), (pows a n); cbn [dot]; rewrite N.mul_0_r; reflexivity.
  - destruct n as [|n]; [lia|]. cbn [Nat.add pows dot]. rewrite (IH n) by lia.
    replace (N.of_nat (S (n + s))) with (N.of_nat s + N.of_nat (S n)) by lia. rewrite N.pow_add_r. lia.
Qed.
Lemma dot_diffs : forall w u l, (length u <= length w)%nat ->
  exists q, (Z.of_N (dot (diffs w u) l) = Z.of_N (dot w l) - Z.of_N (dot u l) + q * r)%Z.
Proof.
  induction w as [|a w IH]; intros u l H.
  - destruct u; [|cbn in H; lia]. exists 0%Z. cbn. reflexivity.
  - destruct l as [|e l]; [exists 0%Z; destruct u; reflexivity|]. destruct u as [|b u]; cbn [diffs dot].
    + destruct (IH [] l) as [q Hq]; [cbn; lia|]. exists q. cbn [dot] in Hq. rewrite !N2Z.inj_add. lia.
    + destruct (IH u l) as [q Hq]; [cbn in H; lia|]. destruct (minus_ok b) as [q2 H2]. exists (q + q2 * Z.of_N e)%Z.
      rewrite !N2Z.inj_add, !N2Z.inj_mul, !N2Z.inj_add, H2, Hq. ring.
Qed.
Lemma dot_zip : forall u c p,  length c = length p ->
  exists q, (Z.of_N (dot u (zip_with (fun c p => c + minus 1 * p)%N c p)) = Z.of_N (dot u c) - Z.of_N (dot u p) + q * r)%Z.
Proof.
  induction u as [|a u IH]; intros c p H; [exists 0%Z; reflexivity|].
  destruct c as [|x c], p as [|y p]; try discriminate H; [exists 0%Z; reflexivity|]. cbn [zip_with dot].
  destruct (IH c p) as [q Hq]; [cbn in H; lia|]. destruct (minus_ok 1) as [q2 H2]. exists (q + Z.of_N a * q2 * Z.of_N y)%Z.
  rewrite !N2Z.inj_add, !N2Z.inj_mul, !N2Z.inj_add, !N2Z.inj_mul, H2, Hq. ring.
Qed.
Lemma dot_app : forall u v l, dot (u ++ v) l = dot u l + dot v (skipn (length u) l).
Proof.
  induction u as [|a u IH]; intros v l; cbn [app length skipn]; [cbn; lia|].
  destruct l as [|e l]; [destruct v; cbn; reflexivity|]. cbn [dot skipn]. rewrite IH. lia.
Qed.
Lemma first_diff_some : forall w u k, first_diff w u = Some k ->
  exists p x w' y u', w = p ++ x :: w' /\ u = p ++ y :: u' /\ length p = k /\ x <> y.
Proof.
  induction w as [|x w IH]; intros [|y u] k H; try discriminate H. cbn [first_diff] in H.
  destruct (N.eqb_spec x y) as [->|Hn].
  - destruct (first_diff w u) as [k'|] eqn:He; [|discriminate H]. cbn in H. injection H as <-.
    destruct (IH u k' He) as (p & x' & w' & y' & u' & -> & -> & Hp & Hd). exists (y :: p), x', w', y', u'. cbn. auto.
  - injection H as <-. exists [], x, w, y, u. auto.
Qed.
Lemma first_diff_none : forall w u, first_diff w u = None -> (length u <= length w)%nat -> exists e, w = u ++ e.
Proof.
  induction w as [|x w IH]; intros [|y u] H Hl; try (exists []; reflexivity).
  - cbn in Hl. lia.
  - exists (x :: w). reflexivity.
  - cbn [first_diff] in H. destruct (N.eqb_spec x y) as [->|Hn]; [|discriminate H].
    destruct (first_diff w u) as [k'|] eqn:He; [discriminate H|]. destruct (IH u He) as (e & ->); [cbn in Hl; lia|]. exists e. reflexivity.
Qed.
Lemma nth_app_here {A} (p : list A) x q d0 : nth (length p) (p ++ x :: q) d0 = x.
Proof. rewrite app_nth2 by lia. rewrite Nat.sub_diag. reflexivity. Qed.
Lemma skipn_app_here {A} (p : list A) x q : skipn (S (length p)) (p ++ x :: q) = q.
Proof. induction p as [|y p IH]; cbn; [reflexivity|exact IH]. Qed.

Lemma sim_algebra (G0 DU DP T S0 X Y A AD x y K R0 C0 q q2 q3 rr : Z) :
  (S0 * T = A * AD -> K * (y - x) = 1 + q * rr ->
  C0 * A + (R0 * (G0 + (DP + (x * T + X)) + (DU - (DP + (y * T + Y)) + q2 * rr)) + K * ((G0 + DU) * S0 + S0 * (X - Y + q3 * rr))) -
  (A * (AD + C0) + (R0 + K * S0) * (G0 + (DP + (x * T + X)) + (DU - (DP + (y * T + Y)) + q2 * rr)))
  = (K * S0 * q3 + q * A * AD - K * S0 * q2) * rr)%Z.
Proof.
  intros H1 H2. transitivity (K * S0 * q3 * rr - A * AD + (S0 * T) * (K * (y - x)) - K * S0 * q2 * rr)%Z; [ring|].
  rewrite H1, H2. ring.
Qed.

Section Sim.
Context {E : env} (L : env_laws E) (g : G1 E) (Hg : g1_insub g = true).
Context (d : nat) (cs a b : N) (w : list N) (c : N) (cl : list N).
Context (Hd : (1 <= d < 64)%nat) (Hw : length w = d) (Hws : Forall (fun x => x < fr_modulus) w) (Hcl : length cl = (d + 1)%nat).
Notation ch := (challenge_for g d a b).
Notation spp := (sim_pp ch d cs w c cl).
Notation ap i := (a ^ N.of_nat i).

Lemma pw_eq i : (i <= d)%nat -> pw ch i = g1_mul (ap i) g.
Proof.
  intros Hi. unfold pw, challenge_for. cbn [ch_1]. rewrite (nth_indep _ g1_zero (g1_mul (ap 0) g)) by (rewrite map_length, seq_length; lia).
  rewrite (map_nth (fun i => g1_mul (ap i) g)), seq_nth by lia. reflexivity.
Qed.
Lemma pw2_eq i : (i <= d)%nat -> nth i (ch_2 ch) g2_zero = g2_mul (ap i) g2_one.
Proof.
  intros Hi. unfold challenge_for. cbn [ch_2]. rewrite (nth_indep _ g2_zero (g2_mul (ap 0) g2_one)) by (rewrite map_length, seq_length; lia).
  rewrite (map_nth (fun i => g2_mul (ap i) g2_one)), seq_nth by lia. reflexivity.
Qed.
Lemma down_eq : down ch = map (fun e => g1_mul e g) (pows a d).
Proof.
  unfold down, challenge_for. cbn [ch_1]. rewrite Nat.add_1_r. cbn [seq map tl]. clear. induction d as [|n IH]; [reflexivity|].
  rewrite seq_S, map_app, rev_app_distr. cbn [map rev app]. rewrite IH. reflexivity.
Qed.
Definition ys : list N := (nth 0 cl 0 + dot w (pows a d)) :: zip_with (fun c p => c + minus 1 * p) (tl cl) (pows a d).
Lemma zip_length {A B C} (f : A -> B -> C) : forall l l', length (zip_with f l l') = Nat.min (length l) (length l').
Proof. induction l as [|x l IH]; intros [|y l']; cbn; auto. Qed.
Lemma tl_cl : length (tl cl) = d.
Proof. destruct cl; cbn in *; lia. Qed.
Lemma ys_length : length ys = (d + 1)%nat.
Proof. unfold ys. cbn [length]. rewrite zip_length, pows_length, tl_cl. lia. Qed.
Lemma sim_pp_eq : spp = exp_params g d cs (ap d + c) ys.
Proof.
  unfold sim_pp, exp_params. rewrite !pw_eq by lia. change (ap 0) with 1. rewrite (l1_mul1 E L). f_equal.
  - rewrite (l1_mul_add E L). reflexivity.
  - unfold ys. cbn [map]. rewrite down_eq, (lincomb_dot L), (l1_mul_add E L). f_equal.
    generalize (tl cl) (pows a d). intros l. induction l as [|x l IH]; intros [|e l']; cbn [zip_with map]; try reflexivity.
    rewrite IH. f_equal. rewrite (l1_mul_add E L), (l1_mul_mul E L). reflexivity.
Qed.
Lemma sim_node u : node_val spp u = g1_mul (nth 0 ys 0 + dot u (tl ys)) g.
Proof.
  rewrite sim_pp_eq. unfold node_val, exp_params. cbn [pp_hlist]. unfold ys. cbn [map skipn nth tl]. rewrite (lincomb_dot L), !(l1_mul_add E L). reflexivity.
Qed.
Lemma sim_pp_ok : pp_ok spp.
Proof.
  rewrite sim_pp_eq. constructor; cbn [exp_params pp_depth pp_hlist pp_h pp_g2].
  - lia.
  - rewrite map_length, ys_length. lia.
  - apply Forall_map. apply Forall_forall. intros e _. apply (g1_mul_insub L), Hg.
  - apply (g1_mul_insub L), Hg.
  - apply (l2_one_sub E L).
Qed.
(** The randomness of the simulated components. *)
Definition moved (k : nat) (u : list N) (r0 : N) : N := r0 + sim_c w k u * ap (S k).
Lemma sim_1_ok k u r0 : (k < d)%nat -> sim_1 ch w k u r0 = g2_mul (moved k u r0) g2_one.
Proof. intros Hk. unfold sim_1, moved. rewrite pw2_eq by lia. rewrite (l2_mul_add E L), (l2_mul_mul E L). reflexivity. Qed.
Lemma sim_2_ok k u r0 : first_diff w u = Some k -> (length u <= d)%nat -> Forall (fun x => x < fr_modulus) u ->
  sim_2 ch d cs w c cl k u r0 = g1_add (g1_mul a (pp_h spp)) (g1_mul (moved k u r0) (node_val spp u)).
Proof.
  intros Hf Hu Hus. unfold sim_2. rewrite sim_node, down_eq, (lincomb_dot L). replace (dotp u (tl cl)) with (dot u (tl cl)) by (symmetry; apply dotp_dot). rewrite sim_pp_eq. cbn [exp_params pp_h].
  destruct (first_diff_some _ _ _ Hf) as (p & x & w' & y & u' & He & He' & Hp & Hxy).
  assert (Hlw : (length p + 1 + length w' = d)%nat) by (rewrite <- Hw, He, app_length; cbn [length]; lia).
  assert (Hlu : (length u' <= length w')%nat) by (rewrite He', app_length in Hu; cbn [length] in Hu; lia).
  rewrite !pw_eq by lia. replace (ap 1) with a by (symmetry; apply N.pow_1_r). rewrite <- !(l1_mul_mul E L), <- !(l1_mul_add E L), <- !(l1_mul_mul E L), <- !(l1_mul_add E L).
  apply (cong_mul L); [exact Hg|].
  assert (Hxl : x < fr_modulus /\ y < fr_modulus).
  { rewrite Forall_forall in Hws, Hus. split; [apply Hws; rewrite He|apply Hus; rewrite He']; apply in_or_app; right; left; reflexivity. }
  assert (Hc : exists q, (Z.of_N (sim_c w k u) * (Z.of_N y - Z.of_N x) = 1 + q * r)%Z).
  { unfold sim_c. rewrite He, He', <- Hp, !nth_app_here. destruct (minus_ok x) as [q Hq]. destruct (fr_inv_ok (y + minus x)) as [q2 H2].
    - intros H0. apply N.mod_divide in H0; [|discriminate]. destruct H0 as [z Hz]. unfold minus in Hz. rewrite (N.mod_small x) in Hz by tauto.
      assert (z = 1 \/ z <> 1) as [->|Hz1] by lia; [lia|]. assert (z = 0 \/ 2 <= z) as [->|Hz2] by lia; [lia|]. nia.
    - rewrite N2Z.inj_add, Hq in H2. exists (q2 - q * Z.of_N (fr_inv (y + minus x)))%Z. rewrite Z.mul_sub_distr_r. lia. }
  destruct Hc as [q Hq]. unfold moved. set (K := sim_c w k u) in *. clearbody K.
  assert (Hys : nth 0 ys 0 + dot u (tl ys) = nth 0 cl 0 + dot w (pows a d) + dot u (zip_with (fun c p => c + minus 1 * p) (tl cl) (pows a d))) by reflexivity.
  destruct (dot_zip u (tl cl) (pows a d)) as [q2 H2]; [rewrite pows_length, tl_cl; reflexivity|].
  rewrite Hys. set (F := dot u (zip_with _ _ _)) in *.
  replace (skipn (S k) w) with w' by (rewrite He, <- Hp, skipn_app_here; reflexivity).
  replace (skipn (S k) u) with u' by (rewrite He', <- Hp, skipn_app_here; reflexivity).
  destruct (dot_diffs w' u' (pows a (d - S k)) Hlu) as [q3 H3].
  assert (Hlen : length (diffs w' u') = length w').
  { clear. revert u'. induction w' as [|e w' IH]; intros [|e' u']; cbn [diffs length]; try reflexivity; rewrite IH; reflexivity. }
  assert (Hsh : dot (diffs w' u') (pows a d) = ap (S k) * dot (diffs w' u') (pows a (d - S k))).
  { rewrite <- dot_shift by lia. f_equal. f_equal. lia. }
  rewrite Hsh.
  assert (Hpp1 : skipn (length p) (pows a d) = ap (d - k) :: pows a (d - S k)).
  { rewrite pows_skip, Hp. replace (d - k)%nat with (S (d - S k)) by lia. reflexivity. }
  assert (HW : dot w (pows a d) = dot p (pows a d) + (x * ap (d - k) + dot w' (pows a (d - S k)))).
  { rewrite He, dot_app, Hpp1. reflexivity. }
  assert (HU : dot u (pows a d) = dot p (pows a d) + (y * ap (d - k) + dot u' (pows a (d - S k)))).
  { rewrite He', dot_app, Hpp1. reflexivity. }
  rewrite HU in H2. rewrite HW. clear HU HW.
  assert (Hap : ap (S k) * ap (d - k) = a * ap d).
  { rewrite <- N.pow_add_r. replace (N.of_nat (S k) + N.of_nat (d - k)) with (N.succ (N.of_nat d)) by lia. apply N.pow_succ_r'. }
  apply (f_equal Z.of_N) in Hap. rewrite !N2Z.inj_mul in Hap.
  unfold cong. rewrite ?N2Z.inj_add, ?N2Z.inj_mul, ?N2Z.inj_add, ?N2Z.inj_mul, ?N2Z.inj_add, ?N2Z.inj_mul, H2, H3, ?N2Z.inj_add, ?N2Z.inj_mul.
  eexists. apply (sim_algebra (Z.of_N (nth 0 cl 0)) (Z.of_N (dot u (tl cl))) (Z.of_N (dot p (pows a d))) _ _ _ _ _ _ _ _ _ _ _ _ _ _ _ Hap Hq).
Qed.
Lemma sim_vec_gen mm K k r0 : forall n cc, length cc = n ->
  zip_with (fun h cp => g1_add (g1_mul r0 h) (g1_mul K (g1_add (g1_mul (fst cp) (g1_mul (ap k) g)) (g1_mul mm (snd cp)))))
    (map (fun e => g1_mul e g) (zip_with (fun c p => c + mm * p) cc (pows a n)))
    (zip_with pair cc (map (fun e => g1_mul e g) (pows a (n + k))))
  = map (g1_mul (r0 + K * ap k)) (map (fun e => g1_mul e g) (zip_with (fun c p => c + mm * p) cc (pows a n))).
Proof.
  induction n as [|n IH]; intros [|x cc] Hc; cbn [length] in Hc; try lia; [reflexivity|].
  cbn [Nat.add pows zip_with map fst snd]. rewrite IH by lia. f_equal.
  rewrite <- !(l1_mul_mul E L), <- !(l1_mul_add E L), <- !(l1_mul_mul E L), <- !(l1_mul_add E L). f_equal.
  replace (N.of_nat (S (n + k))) with (N.of_nat (S n) + N.of_nat k) by lia. rewrite N.pow_add_r.
  generalize (ap (S n)) (ap k). clear. intros. ring.
Qed.
Lemma skipn_zip {A B C} (f : A -> B -> C) : forall n l l', skipn n (zip_with f l l') = zip_with f (skipn n l) (skipn n l').
Proof.
  induction n as [|n IH]; intros l l'; [reflexivity|]. destruct l as [|x l]; [reflexivity|]. destruct l' as [|y l']; cbn [zip_with skipn]; [|apply IH].
  destruct (skipn n l); reflexivity.
Qed.
Lemma sim_vec_ok k u r0 : first_diff w u = Some k -> (length u < d)%nat ->
  sim_vec ch d cs w c cl k u r0 = map (g1_mul (moved k u r0)) (firstn (d - length u) (skipn (length u + 1) (pp_hlist spp))).
Proof.
  intros Hf Hu. destruct (first_diff_some _ _ _ Hf) as (p & x & w' & y & u' & He & He' & Hp & Hxy).
  assert (Hk : (S k <= length u)%nat) by (rewrite He', app_length; cbn [length]; lia).
  unfold sim_vec. rewrite down_eq, sim_pp_eq. cbn [exp_params pp_hlist].
  rewrite firstn_all2 by (rewrite skipn_length, map_length, ys_length; lia).
  rewrite !skipn_map. unfold ys. rewrite Nat.add_1_r. cbn [skipn]. rewrite skipn_zip, !pows_skip.
  replace (match cl with [] => [] | _ :: l => skipn (length u) l end) with (skipn (length u) (tl cl)) by (destruct cl; [apply skipn_nil|reflexivity]).
  replace (d - (length u - S k))%nat with ((d - length u) + S k)%nat by lia.
  rewrite pw_eq by lia. apply sim_vec_gen. rewrite skipn_length, tl_cl. reflexivity.
Qed.

(** * The forgery *)
Lemma node_coords v M : (length v < d)%nat -> forall pp : pubparam E, pp_depth pp = d -> (d < length (pp_hlist pp))%nat -> node_val pp (coords d v M) = sig_val pp v M.
Proof.
  intros Hv pp Hpd Hl. unfold sig_val, node_val, coords. rewrite Hpd. rewrite <- (l1_assoc E L). f_equal.
  assert (Hs : forall B l, (length v <= length l)%nat -> lincomb (v ++ B) l = g1_add (lincomb v l) (lincomb B (skipn (length v) l) : G1 E)).
  { clear - L. induction v as [|x v IH]; intros B l Hl; cbn [app lincomb length skipn].
    - rewrite (l1_zero E L). reflexivity.
    - destruct l as [|h l]; cbn [length] in Hl; [lia|]. rewrite IH by lia. cbn [lincomb]. rewrite (l1_assoc E L). reflexivity. }
  rewrite Hs by (rewrite skipn_length; lia). f_equal. rewrite (lincomb_skip L) by (rewrite !skipn_length; lia).
  rewrite !skipn_skipn. replace (d - 1 - length v + length v + 1)%nat with d by lia. apply (lincomb_one L).
Qed.
Lemma sim_target : node_val spp w = g1_mul (nth 0 cl 0 + dot w (tl cl)) g.
Proof.
  rewrite sim_node. apply (cong_mul L); [exact Hg|]. destruct (dot_zip w (tl cl) (pows a d)) as [q Hq]; [rewrite pows_length, tl_cl; reflexivity|].
  exists q. unfold ys. cbn [nth tl]. rewrite !N2Z.inj_add, Hq. generalize r (Z.of_N (dot w (tl cl))) (Z.of_N (dot w (pows a d))) (Z.of_N (nth 0 cl 0)). clear. intros. ring.
Qed.
Lemma extract_ok s k :
  sig_1 s = g2_mul k g2_one -> sig_2 s = g1_add (g1_mul a (pp_h spp)) (g1_mul k (node_val spp w)) ->
  extract ch w c cl s = solution g d a b.
Proof.
  intros H1 H2. unfold extract, solution. rewrite H1, H2, sim_target, sim_pp_eq. cbn [exp_params pp_h]. rewrite pw_eq by lia. cbn [challenge_for ch_b1 ch_b2].
  replace (dotp w (tl cl)) with (dot w (tl cl)) by (symmetry; apply dotp_dot). set (F := nth 0 cl 0 + dot w (tl cl)).
  replace (ap 1) with a by (symmetry; apply N.pow_1_r).
  assert (Hgm : forall n, g1_insub (g1_mul n g) = true) by (intros n; apply (g1_mul_insub L), Hg).
  assert (Hom : forall n, g2_insub (g2_mul n (@g2_one E)) = true) by (intros n; apply (g2_mul_insub L), (l2_one_sub E L)).
  rewrite <- !(l1_mul_mul E L), <- !(l1_mul_add E L).
  rewrite (pairing_mul_swap L b) by auto using (l2_one_sub E L). rewrite <- (l1_mul_mul E L).
  replace (b * (a * (ap d + c) + k * F)) with (b * a ^ N.of_nat (d + 1) + (b * (c * a) + k * (F * b)))
    by (replace (N.of_nat (d + 1)) with (N.succ (N.of_nat d)) by lia; rewrite N.pow_succ_r'; generalize F (ap d); clear; intros; ring).
  rewrite (l1_mul_add E L (b * _)), (l1_mul_add E L (b * (c * a))).
  rewrite !(lp_add_r E L) by auto using (l2_one_sub E L), (l1_sub_add E L).
  pose proof (pairing_neg_l L (g2_mul b g2_one) (g1_mul (c * a) g) (Hom _) (Hgm _)) as N1.
  pose proof (pairing_neg_l L (g2_mul k g2_one) (g1_mul (F * b) g) (Hom _) (Hgm _)) as N2.
  rewrite (pairing_mul_swap L) in N1, N2 by auto using (l2_one_sub E L). rewrite <- (l1_mul_mul E L) in N1, N2.
  set (P1 := pairing g2_one (g1_mul (b * (c * a)) g)) in *. set (P2 := pairing g2_one (g1_mul (k * (F * b)) g)) in *.
  set (Q1 := pairing _ (g1_mul (c * a) g)) in *. set (Q2 := pairing _ (g1_mul (F * b) g)) in *.
  rewrite <- (lt_assoc E L). replace (gt_mul (gt_mul P1 P2) (gt_mul Q1 Q2)) with (@gt_one E); [apply (gt_one_r L)|].
  rewrite (lt_assoc E L), <- (lt_assoc E L P1), (lt_comm E L P2), (lt_assoc E L P1), N1, (lt_one E L), N2. reflexivity.
Qed.
End Sim.

(** * Replaying a game with other scalars *)
Lemma scalars_cons n a rs : scalars (S n) (a :: rs) <-> a < fr_modulus /\ scalars n rs.
Proof.
  unfold scalars. cbn [length]. split.
  - intros [H1 H2]. inversion H2. subst. repeat split; auto; lia.
  - intros (H1 & H2 & H3). split; [lia|constructor; auto].
Qed.
Section Replay.
Context {E : env} (key1 key2 : N -> N -> option (subkey E)) (sg1 sg2 : N -> bytes -> N -> option (signature E)).
Context (sk sk' : N -> N -> N) (ss ss' : N -> bytes -> N -> N).
Context (Hk : forall t a, key1 t a = key2 t (sk t a)) (Hs : forall t msg a, sg1 t msg a = sg2 t msg (ss t msg a)).
Context (Hkr : forall t a, a < fr_modulus -> sk t a < fr_modulus) (Hkr' : forall t a, a < fr_modulus -> sk' t a < fr_modulus).
Context (Hsr : forall t msg a, a < fr_modulus -> ss t msg a < fr_modulus) (Hsr' : forall t msg a, a < fr_modulus -> ss' t msg a < fr_modulus).
Context (Hki : forall t a, a < fr_modulus -> sk' t (sk t a) = a) (Hki' : forall t a, a < fr_modulus -> sk t (sk' t a) = a).
Context (Hsi : forall t msg a, a < fr_modulus -> ss' t msg (ss t msg a) = a) (Hsi' : forall t msg a, a < fr_modulus -> ss t msg (ss' t msg a) = a).
Fixpoint there (f : forger E) (rs : list N) : list N :=
  match f, rs with
  | AskKey t k, a :: rs' => sk t a :: match key1 t a with Some b => there (k b) rs' | None => rs' end
  | AskSig t msg k, a :: rs' => ss t msg a :: match sg1 t msg a with Some b => there (k b) rs' | None => rs' end
  | _, _ => rs
  end.
Fixpoint back (f : forger E) (rs : list N) : list N :=
  match f, rs with
  | AskKey t k, a :: rs' => sk' t a :: match key2 t a with Some b => back (k b) rs' | None => rs' end
  | AskSig t msg k, a :: rs' => ss' t msg a :: match sg2 t msg a with Some b => back (k b) rs' | None => rs' end
  | _, _ => rs
  end.
Lemma there_play : forall f rs, play key1 sg1 rs f = play key2 sg2 (there f rs) f.
Proof.
  induction f as [s|t k IH|t msg k IH]; intros rs; (destruct rs as [|a rs]; [reflexivity|]); [reflexivity| |]; cbn [play there].
  - rewrite Hk. destruct (key2 t (sk t a)); [apply IH|reflexivity].
  - rewrite Hs. destruct (sg2 t msg (ss t msg a)); [apply IH|reflexivity].
Qed.
Lemma there_scalars : forall f rs n, scalars n rs -> scalars n (there f rs).
Proof.
  induction f as [s|t k IH|t msg k IH]; intros rs n H; [exact H| |]; destruct rs as [|a rs]; try exact H; cbn [there];
    (destruct n as [|n]; [destruct H; discriminate|]); apply scalars_cons in H as [Ha H]; apply scalars_cons; (split; [auto|]).
  - destruct (key1 t a); auto.
  - destruct (sg1 t msg a); auto.
Qed.
Lemma back_scalars : forall f rs n, scalars n rs -> scalars n (back f rs).
Proof.
  induction f as [s|t k IH|t msg k IH]; intros rs n H; [exact H| |]; destruct rs as [|a rs]; try exact H; cbn [back];
    (destruct n as [|n]; [destruct H; discriminate|]); apply scalars_cons in H as [Ha H]; apply scalars_cons; (split; [auto|]).
  - destruct (key2 t a); auto.
  - destruct (sg2 t msg a); auto.
Qed.
Lemma back_there : forall f rs n, scalars n rs -> back f (there f rs) = rs.
Proof.
  induction f as [s|t k IH|t msg k IH]; intros rs n H; [reflexivity| |]; destruct rs as [|a rs]; try reflexivity; cbn [there back];
    (destruct n as [|n]; [destruct H; discriminate|]); apply scalars_cons in H as [Ha H].
  - rewrite Hki, <- Hk by exact Ha. f_equal. destruct (key1 t a); [apply (IH _ _ n H)|reflexivity].
  - rewrite Hsi, <- Hs by exact Ha. f_equal. destruct (sg1 t msg a); [apply (IH _ _ n H)|reflexivity].
Qed.
Lemma there_back : forall f rs n, scalars n rs -> there f (back f rs) = rs.
Proof.
  induction f as [s|t k IH|t msg k IH]; intros rs n H; [reflexivity| |]; destruct rs as [|a rs]; try reflexivity; cbn [there back];
    (destruct n as [|n]; [destruct H; discriminate|]); apply scalars_cons in H as [Ha H].
  - rewrite Hki', Hk, Hki' by exact Ha. f_equal. destruct (key2 t a); [apply (IH _ _ n H)|reflexivity].
  - rewrite Hsi', Hs, Hsi' by exact Ha. f_equal. destruct (sg2 t msg a); [apply (IH _ _ n H)|reflexivity].
Qed.
End Replay.

(** * Arithmetic of the coins *)
Lemma add_sub_mod x s t : x < fr_modulus -> (exists z, Z.of_N s + Z.of_N t = z * r)%Z -> ((x + s) mod fr_modulus + t) mod fr_modulus = x.
Proof.
  intros Hx [z Hz]. rewrite N.add_mod_idemp_l by discriminate. apply N2Z.inj. rewrite N2Z.inj_mod, !N2Z.inj_add, <- Z.add_assoc, Hz, Z_mod_plus_full.
  apply Z.mod_small. lia.
Qed.
Lemma minus_sum t : exists z, (Z.of_N t + Z.of_N (minus t) = z * r)%Z.
Proof. destruct (minus_ok t) as [q H]. exists q. lia. Qed.
Lemma sum_minus t : exists z, (Z.of_N (minus t) + Z.of_N t = z * r)%Z.
Proof. destruct (minus_ok t) as [q H]. exists q. lia. Qed.
Lemma mod_small x : x mod fr_modulus < fr_modulus.
Proof. apply N.mod_lt. discriminate. Qed.
Lemma cong_mod x : cong (x mod fr_modulus) x.
Proof.
  exists (- Z.of_N (x / fr_modulus))%Z. pose proof (N.div_mod x fr_modulus ltac:(discriminate)) as H. apply (f_equal Z.of_N) in H.
  rewrite N2Z.inj_add, N2Z.inj_mul in H. lia.
Qed.

(** * Nodes *)
Lemma path_node d t : 1 <= t <= last_time d -> node_at d t (path_of d t).
Proof.
  intros H. destruct (node_at_ex d t H) as [v Hv]. unfold path_of. destruct Hv as [H1 H2]. split; [exact H1|].
  rewrite (nth_error_nth _ _ [] H2). exact H2.
Qed.
Lemma node_path d t v : node_at d t v -> path_of d t = v.
Proof. intros H. apply (node_at_fun d t); [|exact H]. apply path_node. apply (node_at_range _ _ _ H). Qed.
Lemma pad_inj : forall u v n k, Forall turn u -> Forall turn v -> u ++ repeat 0 n = v ++ repeat 0 k -> u = v.
Proof.
  induction u as [|x u IH]; intros [|y v] n k Hu Hv H; [reflexivity| | |].
  - destruct n; [discriminate H|]. cbn in H. injection H as H0 _. inversion Hv as [|? ? Ht]. subst. destruct Ht as [Ht|Ht]; discriminate Ht.
  - destruct k; [discriminate H|]. cbn in H. injection H as H0 _. inversion Hu as [|? ? Ht]. subst. destruct Ht as [Ht|Ht]; discriminate Ht.
  - cbn in H. injection H as -> H. inversion Hu; inversion Hv; subst. f_equal. apply (IH v n k); auto.
Qed.
Lemma prefixb_app : forall u v, prefixb u (u ++ v) = true.
Proof. induction u as [|x u IH]; intros v; [reflexivity|]. cbn [prefixb app]. rewrite N.eqb_refl, IH. reflexivity. Qed.
Lemma prefixb_pad : forall u v n e rest, Forall turn u -> (length u <= length v + n)%nat -> v ++ repeat 0 n ++ rest = u ++ e -> prefixb u v = true.
Proof.
  induction u as [|x u IH]; intros v n e rest Hu Hl H; [reflexivity|]. inversion Hu as [|? ? Ht Hu']. subst. destruct v as [|y v].
  - destruct n as [|n]; [cbn in Hl; lia|]. cbn in H. injection H as H0 _. subst x. destruct Ht as [Ht|Ht]; discriminate Ht.
  - cbn in H. injection H as -> H. cbn [prefixb]. rewrite N.eqb_refl. apply (IH v n e rest); auto. cbn in Hl. lia.
Qed.
Lemma prefixb_split : forall u v, prefixb u v = true -> exists e, v = u ++ e.
Proof.
  induction u as [|x u IH]; intros v H; [exists v; reflexivity|]. destruct v as [|y v]; [discriminate H|]. cbn in H.
  apply andb_true_iff in H as [Hx H]. apply N.eqb_eq in Hx as ->. destruct (IH v H) as [e ->]. exists e. reflexivity.
Qed.
Lemma coords_length d v M : (length v < d)%nat -> length (coords d v M) = d.
Proof. intros H. unfold coords. rewrite !app_length, repeat_length. cbn [length]. lia. Qed.
Lemma turns_small v : Forall turn v -> Forall (fun x => x < fr_modulus) v.
Proof. apply Forall_impl. intros x [->| ->]; reflexivity. Qed.
Lemma coords_small d v M : Forall turn v -> M < fr_modulus -> Forall (fun x => x < fr_modulus) (coords d v M).
Proof.
  intros Hv HM. unfold coords. apply Forall_app. split; [apply turns_small, Hv|]. apply Forall_app. split; [|constructor; auto].
  apply Forall_forall. intros x Hx. apply repeat_spec in Hx as ->. reflexivity.
Qed.

Lemma cong_sym x y : cong x y -> cong y x.
Proof. intros [q H]. exists (- q)%Z. lia. Qed.

(** * The game *)
Section Game.
Context {E : env} (L : env_laws E) (g : G1 E) (Hg : g1_insub g = true).
Context (d : nat) (cs a b tx mx : N) (Hd : (1 <= d < 64)%nat) (Htx : 1 <= tx <= last_time d) (Hmx : mx < fr_modulus).
Notation w := (coords d (path_of d tx) mx).
Notation ch := (challenge_for g d a b).
Notation ap i := (a ^ N.of_nat i).
Lemma w_length : length w = d.
Proof. apply coords_length. apply (node_short d tx). apply path_node, Htx. Qed.
Lemma w_small : Forall (fun x => x < fr_modulus) w.
Proof. apply coords_small; [|exact Hmx]. apply (node_turns d tx). apply path_node, Htx. Qed.
Lemma key_diff t : key_allowed d tx t = true -> exists k, first_diff w (path_of d t) = Some k.
Proof.
  intros H. unfold key_allowed in H. apply andb_true_iff in H as [H Hn]. apply andb_true_iff in H as [H1 H2]. apply negb_true_iff in Hn.
  assert (Ht : node_at d t (path_of d t)) by (apply path_node; lia).
  destruct (first_diff w (path_of d t)) as [k|] eqn:He; [exists k; reflexivity|exfalso].
  pose proof (node_short _ _ _ Ht) as Hs. pose proof (node_short _ _ _ (path_node d tx Htx)) as Hs'.
  destruct (first_diff_none _ _ He) as [e Hw]; [rewrite w_length; lia|]. unfold coords in Hw.
  rewrite (prefixb_pad (path_of d t) (path_of d tx) (d - 1 - length (path_of d tx)) e [mx]) in Hn; [discriminate Hn| |lia|exact Hw].
  apply (node_turns _ _ _ Ht).
Qed.
Lemma sig_diff t M : sig_allowed d tx mx t M = true -> exists k, first_diff w (coords d (path_of d t) M) = Some k.
Proof.
  intros H. unfold sig_allowed in H. apply andb_true_iff in H as [H Hn]. apply andb_true_iff in H as [H1 H2]. apply negb_true_iff in Hn.
  assert (Ht : node_at d t (path_of d t)) by (apply path_node; lia). pose proof (path_node d tx Htx) as Ht'.
  destruct (first_diff w (coords d (path_of d t) M)) as [k|] eqn:He; [exists k; reflexivity|exfalso].
  pose proof (node_short _ _ _ Ht) as Hs. pose proof (coords_length d (path_of d t) M Hs) as Hl.
  destruct (first_diff_none _ _ He) as [e Hw]; [rewrite w_length; lia|].
  assert (e = []) as ->. { apply (f_equal (@length N)) in Hw. rewrite app_length, w_length, Hl in Hw. destruct e; [reflexivity|cbn in Hw; lia]. }
  rewrite app_nil_r in Hw. unfold coords in Hw. rewrite !app_assoc in Hw. apply app_inj_tail in Hw as [Hw ->].
  apply pad_inj in Hw; [|apply (node_turns _ _ _ Ht')|apply (node_turns _ _ _ Ht)].
  rewrite Hw in Ht'. rewrite (node_at_inj _ _ _ _ Ht' Ht), !N.eqb_refl in Hn. discriminate Hn.
Qed.
Definition sh (u : list N) (r0 : N) : N :=
  match first_diff w u with Some k => moved a w k u r0 mod fr_modulus | None => r0 end.
Definition unsh (u : list N) (r0 : N) : N :=
  match first_diff w u with Some k => (r0 + minus (sim_c w k u * ap (S k))) mod fr_modulus | None => r0 end.
Lemma sh_lt u r0 : r0 < fr_modulus -> sh u r0 < fr_modulus.
Proof. intros H. unfold sh. destruct (first_diff w u); [apply mod_small|exact H]. Qed.
Lemma unsh_lt u r0 : r0 < fr_modulus -> unsh u r0 < fr_modulus.
Proof. intros H. unfold unsh. destruct (first_diff w u); [apply mod_small|exact H]. Qed.
Lemma unsh_sh u r0 : r0 < fr_modulus -> unsh u (sh u r0) = r0.
Proof. intros H. unfold unsh, sh, moved. destruct (first_diff w u); [|reflexivity]. apply add_sub_mod; [exact H|apply minus_sum]. Qed.
Lemma sh_unsh u r0 : r0 < fr_modulus -> sh u (unsh u r0) = r0.
Proof. intros H. unfold unsh, sh, moved. destruct (first_diff w u); [|reflexivity]. apply add_sub_mod; [exact H|apply sum_minus]. Qed.

Section Coins.
Context (c : N) (cl : list N) (Hcl : length cl = (d + 1)%nat).
Notation spp := (sim_pp ch d cs w c cl).
Lemma sim_key_real t r0 : sim_key ch d cs w c cl tx t r0 = real_key spp a tx t (sh (path_of d t) r0).
Proof.
  unfold sim_key, real_key. cbn [sim_pp pp_depth]. destruct (key_allowed d tx t) eqn:Hall; [|reflexivity].
  destruct (key_diff t Hall) as [k Hk]. rewrite Hk. unfold sh. rewrite Hk. f_equal.
  unfold key_allowed in Hall. apply andb_true_iff in Hall as [Hr _]. assert (Ht : node_at d t (path_of d t)) by (apply path_node; lia). clear Hr.
  pose proof (node_short _ _ _ Ht) as Hs. pose proof (turns_small _ (node_turns _ _ _ Ht)) as Hts.
  destruct (first_diff_some _ _ _ Hk) as (p & x & w' & y & u' & He & He' & Hp & Hxy).
  assert (Hkd : (k < d)%nat). { rewrite He', app_length in Hs. cbn [length] in Hs. lia. }
  pose proof (sim_pp_ok L g Hg d cs a b w c cl Hd w_length Hcl) as Hok.
  unfold honest_ssk. f_equal.
  - rewrite (sim_1_ok L g Hg d a b w cl Hd w_length Hcl) by lia. cbn [sim_pp pp_g2]. apply (cong_mul2 L); [apply (l2_one_sub E L)|]. apply cong_sym, cong_mod.
  - rewrite (sim_2_ok L g Hg d cs a b w c cl Hd w_length w_small Hcl) by (auto; lia). f_equal. apply (cong_mul L); [|apply cong_sym, cong_mod].
    apply (node_val_insub L), Hok.
  - rewrite (sim_vec_ok L g Hg d cs a b w c cl Hd w_length Hcl) by (auto; lia). cbn [sim_pp pp_depth]. apply map_ext_in. intros h Hh.
    apply (cong_mul L); [|apply cong_sym, cong_mod]. destruct Hok as [_ _ Hl _ _]. rewrite Forall_forall in Hl. apply Hl.
    rewrite <- (firstn_skipn (length (path_of d t) + 1)). apply in_or_app. right. rewrite <- (firstn_skipn (d - length (path_of d t))). apply in_or_app. left. exact Hh.
Qed.
Lemma sim_sig_real t msg r0 :
  sim_sig ch d cs w c cl tx mx t msg r0 = real_sig spp a tx mx t msg (sh (coords d (path_of d t) (@target E cs msg)) r0).
Proof.
  unfold sim_sig, real_sig. cbn [sim_pp pp_depth]. change (msg_scalar spp msg) with (@target E cs msg). set (M := @target E cs msg).
  assert (HM : M < fr_modulus) by (apply (msg_scalar_lt spp msg)). clearbody M.
  destruct (sig_allowed d tx mx t M) eqn:Hall; [|reflexivity].
  destruct (sig_diff t M Hall) as [k Hk]. rewrite Hk. unfold sh. rewrite Hk. f_equal.
  unfold sig_allowed in Hall. apply andb_true_iff in Hall as [Hr _]. assert (Ht : node_at d t (path_of d t)) by (apply path_node; lia). clear Hr.
  pose proof (node_short _ _ _ Ht) as Hs. pose proof (coords_length d (path_of d t) M Hs) as Hl.
  destruct (first_diff_some _ _ _ Hk) as (p & x & w' & y & u' & He & He' & Hp & Hxy).
  assert (Hkd : (k < d)%nat). { rewrite He', app_length in Hl. cbn [length] in Hl. lia. }
  pose proof (sim_pp_ok L g Hg d cs a b w c cl Hd w_length Hcl) as Hok.
  unfold honest_sig. f_equal.
  - rewrite (sim_1_ok L g Hg d a b w cl Hd w_length Hcl) by lia. cbn [sim_pp pp_g2]. apply (cong_mul2 L); [apply (l2_one_sub E L)|]. apply cong_sym, cong_mod.
  - rewrite (sim_2_ok L g Hg d cs a b w c cl Hd w_length w_small Hcl) by (auto using coords_small, (node_turns _ _ _ Ht); lia).
    f_equal. rewrite <- (node_coords L g Hg d w cl Hd w_length Hcl (path_of d t) M Hs spp eq_refl) by apply Hok.
    apply (cong_mul L); [|apply cong_sym, cong_mod]. apply (node_val_insub L), Hok.
Qed.
Lemma extraction m s msg : mx = @target E cs msg ->
  verify m s (sim_pk ch cs) spp msg = Ok true -> sig_time s = tx -> extract ch w c cl s = solution g d a b.
Proof.
  intros Hm Hv Ht. pose proof (sim_pp_ok L g Hg d cs a b w c cl Hd w_length Hcl) as Hok.
  assert (Hpk : pk_pk (sim_pk ch cs) = g2_mul a (pp_g2 spp)).
  { unfold sim_pk. cbn [pk_pk sim_pp pp_g2]. rewrite (pw2_eq g Hg d a b w cl Hd w_length Hcl) by lia. f_equal. apply N.pow_1_r. }
  apply (accepted_form E L m spp s (sim_pk ch cs) msg a Hok eq_refl Hpk) in Hv as (_ & v & k & Hn & Hs).
  rewrite Ht in Hn. cbn [sim_pp pp_depth] in Hn. rewrite Hs.
  apply (extract_ok L g Hg d cs a b w c cl Hd w_length Hcl _ k); [reflexivity|]. cbn [honest_sig sig_2]. f_equal. f_equal.
  change (msg_scalar spp msg) with (@target E cs msg). rewrite <- Hm. pose proof (node_path _ _ _ Hn) as Hp. subst v. symmetry.
  apply (node_coords L g Hg d w cl Hd w_length Hcl _ mx (node_short _ _ _ Hn) spp eq_refl). apply Hok.
Qed.
End Coins.
End Game.

(** * Both ways between the coins *)
Section Coins2.
Context {E : env} (L : env_laws E) (g : G1 E) (Hg : g1_insub g = true).
Context (d : nat) (cs a b tx : N) (msg : bytes) (Hd : (1 <= d < 64)%nat) (Htx : 1 <= tx <= last_time d).
Context (adv : pubparam E -> pubkey E -> forger E).
Notation mx := (@target E cs msg).
Notation w := (coords d (path_of d tx) mx).
Notation ch := (challenge_for g d a b).
Notation ap i := (a ^ N.of_nat i).
Notation q := fr_modulus.
Lemma mx_small : mx < q.
Proof. apply (msg_scalar_lt (exp_params g d cs 0 []) msg). Qed.
Definition c_to (c : N) : N := (c + ap d) mod q.
Definition c_from (y : N) : N := (y + minus (ap d)) mod q.
Definition cl_to (cl : list N) : list N :=
  (nth 0 cl 0 + dot w (pows a d)) mod q :: zip_with (fun c p => (c + minus 1 * p) mod q) (tl cl) (pows a d).
Definition cl_from (ys : list N) : list N :=
  (nth 0 ys 0 + minus (dot w (pows a d))) mod q :: zip_with (fun y p => (y + p) mod q) (tl ys) (pows a d).
Lemma zip_scalars (f : N -> N -> N) n l p : (forall x y, f x y < q) -> length l = n -> length p = n -> scalars n (zip_with f l p).
Proof.
  intros Hf Hl Hp. split; [rewrite zip_length; lia|]. clear Hl Hp. revert p. induction l as [|x l IH]; intros [|y p]; cbn [zip_with]; constructor; auto.
Qed.
Lemma tl_length (l : list N) n : length l = (n + 1)%nat -> length (tl l) = n.
Proof. destruct l; cbn; lia. Qed.
Lemma cl_to_ok cl : scalars (d + 1) cl -> scalars (d + 1) (cl_to cl).
Proof.
  intros [Hl _]. rewrite Nat.add_1_r. unfold cl_to, cl_from. refine (proj2 (scalars_cons _ _ _) _). split; [apply mod_small|].
  apply zip_scalars; [intros; apply mod_small|apply tl_length, Hl|apply pows_length].
Qed.
Lemma cl_from_ok cl : scalars (d + 1) cl -> scalars (d + 1) (cl_from cl).
Proof.
  intros [Hl _]. rewrite Nat.add_1_r. unfold cl_to, cl_from. refine (proj2 (scalars_cons _ _ _) _). split; [apply mod_small|].
  apply zip_scalars; [intros; apply mod_small|apply tl_length, Hl|apply pows_length].
Qed.
Lemma zip_inv (f h : N -> N -> N) : (forall x p, x < q -> h (f x p) p = x) -> forall l p, length l = length p -> Forall (fun x => x < q) l ->
  zip_with h (zip_with f l p) p = l.
Proof.
  intros Hf. induction l as [|x l IH]; intros [|y p] Hl Hs; try discriminate Hl; [reflexivity|]. inversion Hs; subst. cbn [zip_with].
  rewrite Hf by assumption. rewrite IH by (auto; cbn in Hl; lia). reflexivity.
Qed.
Lemma minus1_sum p : exists z, (Z.of_N (minus 1 * p) + Z.of_N p = z * r)%Z.
Proof. destruct (minus_ok 1) as [z H]. exists (z * Z.of_N p)%Z. rewrite N2Z.inj_mul, H. lia. Qed.
Lemma sum_minus1 p : exists z, (Z.of_N p + Z.of_N (minus 1 * p) = z * r)%Z.
Proof. destruct (minus1_sum p) as [z H]. exists z. lia. Qed.
Lemma cl_from_to cl : scalars (d + 1) cl -> cl_from (cl_to cl) = cl.
Proof.
  intros [Hl Hs]. destruct cl as [|x cl]; [cbn in Hl; lia|]. inversion Hs; subst. unfold cl_from, cl_to. cbn [nth tl].
  rewrite add_sub_mod by (auto using minus_sum). rewrite zip_inv; [reflexivity| | |assumption].
  - intros y p Hy. apply add_sub_mod; [exact Hy|apply minus1_sum].
  - rewrite pows_length. cbn in Hl. lia.
Qed.
Lemma cl_to_from cl : scalars (d + 1) cl -> cl_to (cl_from cl) = cl.
Proof.
  intros [Hl Hs]. destruct cl as [|x cl]; [cbn in Hl; lia|]. inversion Hs; subst. unfold cl_from, cl_to. cbn [nth tl].
  rewrite add_sub_mod by (auto using sum_minus). rewrite zip_inv; [reflexivity| | |assumption].
  - intros y p Hy. apply add_sub_mod; [exact Hy|apply sum_minus1].
  - rewrite pows_length. cbn in Hl. lia.
Qed.
Lemma sim_pp_exp c cl : length cl = (d + 1)%nat -> sim_pp ch d cs w c cl = exp_params g d cs (c_to c) (cl_to cl).
Proof.
  intros Hcl. rewrite (sim_pp_eq L g Hg d cs a b w c cl Hd (w_length d tx mx Htx) Hcl). unfold exp_params. f_equal.
  - apply (cong_mul L); [exact Hg|]. apply cong_sym. rewrite N.add_comm. apply cong_mod.
  - unfold ys, cl_to. cbn [map]. f_equal.
    + apply (cong_mul L); [exact Hg|]. apply cong_sym, cong_mod.
    + generalize (tl cl) (pows a d). induction l as [|x l IH]; intros [|y p]; cbn [zip_with map]; try reflexivity. rewrite IH. f_equal.
      apply (cong_mul L); [exact Hg|]. apply cong_sym, cong_mod.
Qed.
Lemma sim_pk_eq : sim_pk ch cs = PubKey cs (g2_mul a (@g2_one E)).
Proof.
  unfold sim_pk. f_equal. unfold challenge_for. cbn [ch_2]. destruct d as [|[|n]]; [lia| |]; cbn; rewrite ?N.mul_1_r; f_equal; apply N.pow_1_r.
Qed.
Notation z3 := (N * list N * list N)%type.
Definition shk (t r0 : N) := sh d a tx mx (path_of d t) r0.
Definition shs (t : N) (m0 : bytes) (r0 : N) := sh d a tx mx (coords d (path_of d t) (@target E cs m0)) r0.
Definition unshk (t r0 : N) := unsh d a tx mx (path_of d t) r0.
Definition unshs (t : N) (m0 : bytes) (r0 : N) := unsh d a tx mx (coords d (path_of d t) (@target E cs m0)) r0.
Definition Fz (z : z3) : z3 :=
  let '(c, cl, rs) := z in
  (c_to c, cl_to cl, there (sim_key ch d cs w c cl tx) (sim_sig ch d cs w c cl tx mx) shk shs (adv (sim_pp ch d cs w c cl) (sim_pk ch cs)) rs).
Definition Gz (z : z3) : z3 :=
  let '(y, ys, rs) := z in
  let c := c_from y in let cl := cl_from ys in let pp := sim_pp ch d cs w c cl in
  (c, cl, back (real_key pp a tx) (real_sig pp a tx mx) unshk unshs (adv pp (sim_pk ch cs)) rs).
Lemma Fz_ok n z : coins_ok d n z -> coins_ok d n (Fz z) /\ Gz (Fz z) = z.
Proof.
  destruct z as [[c cl] rs]. intros (Hc & Hcl & Hrs). unfold Fz, Gz. split.
  - split; [apply mod_small|]. split; [apply cl_to_ok, Hcl|]. apply there_scalars; auto; intros; apply sh_lt; auto.
  - assert (He : c_from (c_to c) = c) by (apply add_sub_mod; [exact Hc|apply minus_sum]). rewrite He, (cl_from_to cl Hcl). f_equal.
    eapply back_there; try exact Hrs; intros; try (apply unsh_sh; assumption).
    + apply (sim_key_real L g Hg d cs a b tx mx Hd Htx mx_small c cl). apply Hcl.
    + apply (sim_sig_real L g Hg d cs a b tx mx Hd Htx mx_small c cl). apply Hcl.
Qed.
Lemma Gz_ok n z : coins_ok d n z -> coins_ok d n (Gz z) /\ Fz (Gz z) = z.
Proof.
  destruct z as [[c cl] rs]. intros (Hc & Hcl & Hrs). unfold Fz, Gz. split.
  - split; [apply mod_small|]. split; [apply cl_from_ok, Hcl|]. apply back_scalars; auto; intros; apply unsh_lt; auto.
  - assert (He : c_to (c_from c) = c) by (apply add_sub_mod; [exact Hc|apply sum_minus]). rewrite He, (cl_to_from cl Hcl). f_equal.
    eapply there_back; try exact Hrs; intros; try (apply sh_unsh; assumption).
    + apply (sim_key_real L g Hg d cs a b tx mx Hd Htx mx_small). apply cl_from_ok, Hcl.
    + apply (sim_sig_real L g Hg d cs a b tx mx Hd Htx mx_small). apply cl_from_ok, Hcl.
Qed.
Lemma Fz_play n c cl rs : coins_ok d n (c, cl, rs) ->
  let '(y, ys, rs') := Fz (c, cl, rs) in
  sim_pp ch d cs w c cl = exp_params g d cs y ys
  /\ sim_play ch d cs w c cl tx mx rs (adv (sim_pp ch d cs w c cl) (sim_pk ch cs))
     = real_play (exp_params g d cs y ys) a tx mx rs' (adv (exp_params g d cs y ys) (PubKey cs (g2_mul a g2_one))).
Proof.
  intros (Hc & Hcl & Hrs). unfold Fz. rewrite <- (sim_pp_exp c cl) by apply Hcl. split; [reflexivity|].
  unfold sim_play, real_play. rewrite <- sim_pk_eq. apply there_play; intros.
  - apply (sim_key_real L g Hg d cs a b tx mx Hd Htx mx_small c cl). apply Hcl.
  - apply (sim_sig_real L g Hg d cs a b tx mx Hd Htx mx_small c cl). apply Hcl.
Qed.
Lemma Fz_wins m n z : coins_ok d n z -> wins m g d cs a tx msg adv (Fz z) -> solve ch d cs tx msg adv z = Some (solution g d a b).
Proof.
  destruct z as [[c cl] rs]. intros Hz Hw. pose proof (Fz_play n c cl rs Hz) as Hp. unfold solve. destruct (Fz (c, cl, rs)) as [[y ys] rs'].
  cbv zeta in *. destruct Hp as [Hpp Hp]. destruct Hw as (s & Hs & Ht & Hv). change (msg_scalar (exp_params g d cs y ys) msg) with mx in Hs.
  rewrite Hp, Hs. f_equal. destruct Hz as (_ & Hcl & _).
  apply (extraction L g Hg d cs a b tx mx Hd Htx mx_small c cl (proj1 Hcl) m s msg eq_refl); [|exact Ht]. rewrite Hpp, sim_pk_eq. exact Hv.
Qed.
End Coins2.

Lemma simulation_perfect : forall (E : env) (L : env_laws E) (g : G1 E) d cs a b tx msg adv n,
  g1_insub g = true -> (1 <= d < 64)%nat -> 1 <= tx <= last_time d ->
  exists F G : N * list N * list N -> N * list N * list N,
    (forall z, coins_ok d n z -> coins_ok d n (F z) /\ G (F z) = z)
    /\ (forall z, coins_ok d n z -> coins_ok d n (G z) /\ F (G z) = z)
    /\ forall c cl rs, coins_ok d n (c, cl, rs) ->
       let ch := challenge_for g d a b in
       let mx := @target E cs msg in
       let w := coords d (path_of d tx) mx in
       let '(y, ys, rs') := F (c, cl, rs) in
       sim_pp ch d cs w c cl = exp_params g d cs y ys
       /\ sim_pk ch cs = PubKey cs (g2_mul a g2_one)
       /\ sim_play ch d cs w c cl tx mx rs (adv (sim_pp ch d cs w c cl) (sim_pk ch cs))
          = real_play (exp_params g d cs y ys) a tx mx rs' (adv (exp_params g d cs y ys) (PubKey cs (g2_mul a g2_one))).
Proof.
  intros E L g d cs a b tx msg adv n Hg Hd Htx.
  exists (Fz g d cs a b tx msg adv), (Gz g d cs a b tx msg adv). split; [apply (Fz_ok L g Hg d cs a b tx msg Hd Htx)|].
  split; [apply (Gz_ok L g Hg d cs a b tx msg Hd Htx)|]. intros c cl rs Hz. cbv zeta.
  pose proof (Fz_play L g Hg d cs a b tx msg Hd Htx adv n c cl rs Hz) as H. destruct (Fz g d cs a b tx msg adv (c, cl, rs)) as [[y ys] rs'].
  destruct H as [H1 H2]. split; [exact H1|]. split; [eapply sim_pk_eq; eassumption|exact H2].
Qed.
Lemma forgery_solves : forall (E : env) (L : env_laws E) m (g : G1 E) d cs a b tx msg c cl s,
  g1_insub g = true -> (1 <= d < 64)%nat -> 1 <= tx <= last_time d -> scalars (d + 1) cl ->
  let ch := challenge_for g d a b in
  let w := coords d (path_of d tx) (@target E cs msg) in
  verify m s (sim_pk ch cs) (sim_pp ch d cs w c cl) msg = Ok true -> sig_time s = tx ->
  extract ch w c cl s = solution g d a b.
Proof.
  intros E L m g d cs a b tx msg c cl s Hg Hd Htx [Hcl _] ch w Hv Ht.
  apply (extraction L g Hg d cs a b tx _ Hd Htx (mx_small g d cs msg) c cl Hcl m s msg eq_refl Hv Ht).
Qed.
Lemma forger_solves : forall (E : env) (L : env_laws E) m (g : G1 E) d cs a b tx msg adv n ws,
  g1_insub g = true -> (1 <= d < 64)%nat -> 1 <= tx <= last_time d ->
  NoDup ws -> Forall (fun z => coins_ok d n z /\ wins m g d cs a tx msg adv z) ws ->
  exists zs, length zs = length ws /\ NoDup zs
    /\ Forall (fun z => coins_ok d n z /\ solve (challenge_for g d a b) d cs tx msg adv z = Some (solution g d a b)) zs.
Proof.
  intros E L m g d cs a b tx msg adv n ws Hg Hd Htx Hnd Hws. set (G := Gz g d cs a b tx msg adv).
  pose proof (fun z => Gz_ok L g Hg d cs a b tx msg Hd Htx adv n z) as HG.
  exists (map G ws). split; [apply map_length|]. split.
  - induction ws as [|z ws IH]; [constructor|]. inversion Hnd; inversion Hws; subst. cbn [map]. constructor; [|auto].
    intros Hin. apply in_map_iff in Hin as (z' & He & Hin). match goal with H : ~ In z ws |- _ => apply H end.
    assert (Hz' : coins_ok d n z') by (rewrite Forall_forall in H6; apply H6, Hin).
    replace z with z'; [exact Hin|]. rewrite <- (proj2 (HG z' Hz')). fold G. rewrite He. apply (HG z). tauto.
  - apply Forall_forall. intros z Hz. apply in_map_iff in Hz as (z' & <- & Hin). rewrite Forall_forall in Hws. destruct (Hws z' Hin) as [Hz' Hw].
    destruct (HG z' Hz') as [H1 H2]. split; [exact H1|]. apply (Fz_wins L g Hg d cs a b tx msg Hd Htx adv m n); [exact H1|].
    fold G in H2. unfold G in H2 |- *. rewrite H2. exact Hw.
Qed.

(** * The interface gives answers of the game *)
Lemma later_allowed d tx t : 1 <= tx < t -> t <= last_time d -> key_allowed d tx t = true.
Proof.
  intros H1 H2. unfold key_allowed. destruct (prefixb (path_of d t) (path_of d tx)) eqn:Hp; [exfalso|lia].
  apply prefixb_split in Hp as [e He]. pose proof (path_node d t ltac:(lia)) as Ht. pose proof (path_node d tx ltac:(lia)) as Htx. rewrite He in Htx.
  assert (Hb : below d t tx) by (exists (path_of d t), e; auto). apply (below_interval d t (path_of d t) tx Ht) in Hb. lia.
Qed.
Lemma honest_ssk_mod {E} (L : env_laws E) (pp : pubparam E) x t v k : pp_ok pp -> honest_ssk pp x t v k = honest_ssk pp x t v (k mod fr_modulus).
Proof.
  intros Hpp. pose proof (cong_sym _ _ (cong_mod k)) as Hc. unfold honest_ssk. f_equal.
  - apply (cong_mul2 L); [apply Hpp|exact Hc].
  - f_equal. apply (cong_mul L); [apply (node_val_insub L), Hpp|exact Hc].
  - apply map_ext_in. intros h Hh. apply (cong_mul L); [|exact Hc]. destruct Hpp as [_ _ Hl _ _]. rewrite Forall_forall in Hl. apply Hl.
    rewrite <- (firstn_skipn (length v + 1)). apply in_or_app. right. rewrite <- (firstn_skipn (pp_depth pp - length v)). apply in_or_app. left. exact Hh.
Qed.
Lemma honest_sig_mod {E} (L : env_laws E) (pp : pubparam E) x t v M k : pp_ok pp -> honest_sig pp x t v M k = honest_sig pp x t v M (k mod fr_modulus).
Proof.
  intros Hpp. pose proof (cong_sym _ _ (cong_mod k)) as Hc. unfold honest_sig. f_equal.
  - apply (cong_mul2 L); [apply Hpp|exact Hc].
  - f_equal. apply (cong_mul L); [|exact Hc]. unfold sig_val. apply (l1_sub_add E L); [apply (node_val_insub L), Hpp|].
    apply (g1_mul_insub L). apply (Forall_nth_insub L), Hpp.
Qed.
Lemma api_view : forall (E : env) (L : env_laws E) m (pp : pubparam E) seed pk sk pop ops tx mx,
  pp_ok pp -> key_gen seed pp = Ok (pk, sk, pop) -> 1 <= tx ->
  exists x, x < fr_modulus /\ pk = PubKey (pp_cs pp) (g2_mul x (pp_g2 pp))
    /\ (tx < sec_time (snd (run m pp ops sk)) ->
        Forall (fun s => exists k, k < fr_modulus /\ real_key pp x tx (sk_t s) k = Some s) (sec_ssk (snd (run m pp ops sk))))
    /\ Forall2 (fun o a => match a with
                           | Ok (Some s) => exists t msg, signs o = Some (t, msg)
                               /\ (t = tx /\ msg_scalar pp msg = mx
                                   \/ exists k, k < fr_modulus /\ real_sig pp x tx mx t msg k = Some s)
                           | _ => True
                           end) ops (fst (run m pp ops sk)).
Proof.
  intros E L m pp seed pk sk pop ops tx mx Hpp Hk Htx.
  destruct (key_gen_good L pp seed pk sk pop Hpp Hk) as (x & Hx & -> & Hg & _ & Hcs). exists x. split; [exact Hx|]. split; [reflexivity|]. split.
  - intros Hlt. pose proof (run_good L m pp x ops sk Hpp Hcs Hg) as [_ _ Htil Hh _]. set (sk' := snd (run m pp ops sk)) in *.
    apply Forall_forall. intros s Hs. rewrite Forall_forall in Hh. destruct (Hh s Hs) as (v & k & Hn & He). exists (k mod fr_modulus). split; [apply mod_small|].
    assert (Hge : sec_time sk' <= sk_t s) by (pose proof (tiling_ge _ _ _ Htil) as H; rewrite Forall_forall in H; apply H, in_map, Hs).
    pose proof (node_at_range _ _ _ Hn) as Hr. unfold real_key. rewrite later_allowed by lia. rewrite (node_path _ _ _ Hn). f_equal.
    rewrite <- (honest_ssk_mod L pp x (sk_t s) v k Hpp). symmetry. exact He.
  - clear Hk seed pop. revert sk Hg. induction ops as [|o ops IH]; intros sk Hg; [constructor|]. cbn [run].
    pose proof (step_good L m pp x o sk Hpp Hcs Hg) as [Hg' Hs].
    destruct (step m pp o sk) as [a sk1] eqn:Es. cbn [fst snd] in Hg', Hs. specialize (IH sk1 Hg').
    destruct (run m pp ops sk1) as [rs sk2]. cbn [fst] in *. constructor; [|exact IH].
    destruct a as [[s|]| |]; auto.
    assert (Hgs : forall t msg, good_sig pp x t msg s -> t = tx /\ msg_scalar pp msg = mx
                                   \/ exists k, k < fr_modulus /\ real_sig pp x tx mx t msg k = Some s).
    { intros t msg (v & k & Hn & He). destruct ((t =? tx) && (msg_scalar pp msg =? mx)) eqn:Hq; [left; lia|right].
      exists (k mod fr_modulus). split; [apply mod_small|]. unfold real_sig. pose proof (node_at_range _ _ _ Hn) as Hr.
      unfold sig_allowed. rewrite Hq. replace (1 <=? t) with true by lia. replace (t <=? last_time (pp_depth pp)) with true by lia. cbn [andb negb].
      rewrite (node_path _ _ _ Hn), <- (honest_sig_mod L pp x t v _ k Hpp). f_equal. symmetry. exact He. }
    destruct o as [t sd|t msg sd|t msg|t msg sd|cc]; cbn [signs]; try contradiction; exists t, msg; (split; [reflexivity|]);
      apply Hgs; tauto.
Qed.
