(** The lemmas behind Properties_Adv.v, second part: counting and probabilities. *)
From Coq Require Import QArith Lqa.
From Coq Require Import Lia ZifyBool ZifyN ZifyNat.
From Verif Require Import Base Env Time SpecTime TimeFacts Prng SpecPrng PrngFacts SpecKey SpecMulti SpecRom SpecPop SpecFwd SpecClean CountProps
  CleanCountProps CleanMainProps AdvProps SpecIface SpecCost SpecAdv.
Local Open Scope N_scope.
#[local] Opaque hash_values numbers.

(** * How many coins there are *)
Definition keys_all : list (bytes * N) := list_prod hash_values (numbers fr_modulus).
Definition game_all (d n nb nk nu ls q p : nat) : list gcoins :=
  list_prod (list_prod keys_all (numbers (last_time d + 1))) (gall fr_modulus d n nb nk nu ls q p).
Lemma prod_len A B (l : list A) (l' : list B) : N.of_nat (length (list_prod l l')) = N.of_nat (length l) * N.of_nat (length l').
Proof. rewrite prod_length, Nat2N.inj_mul. reflexivity. Qed.
Lemma keys_in bx b : In (bx, b) keys_all <-> (length bx = 64%nat /\ are_bytes bx) /\ b < fr_modulus.
Proof. unfold keys_all. rewrite in_prod_iff, numbers_in, hash_values_in. reflexivity. Qed.
Lemma keys_nodup : NoDup keys_all.
Proof. apply prod_nodup; [apply hash_values_nodup|apply numbers_nodup]. Qed.
Lemma keys_length : N.of_nat (length keys_all) = 256 ^ 64 * fr_modulus.
Proof. etransitivity; [apply prod_len|]. rewrite hash_values_length, numbers_length. reflexivity. Qed.
#[local] Opaque keys_all.
Lemma game_all_in d n nb nk nu ls q p w : In w (game_all d n nb nk nu ls q p) <-> gcoins_any d n nb nk nu ls q p w.
Proof.
  destruct w as [[[bx b] tb] z]. unfold game_all, gcoins_any. rewrite (in_prod_iff _ _ (bx, b, tb) z), (in_prod_iff _ _ (bx, b) tb), keys_in, numbers_in, gall_in.
  assert (tb < last_time d + 1 <-> tb <= last_time d) by lia. unfold gany, fcoins_any. destruct z as [[[[y ys] hs] zs] [[[[seed A] B] ks] us]]. tauto.
Qed.
Lemma game_all_nodup d n nb nk nu ls q p : NoDup (game_all d n nb nk nu ls q p).
Proof. apply prod_nodup; [apply prod_nodup; [apply keys_nodup|apply numbers_nodup]|apply gall_nodup]. Qed.
Lemma game_all_length d n nb nk nu ls q p : N.of_nat (length (game_all d n nb nk nu ls q p)) = game_count d n nb nk nu ls q p * (last_time d + 1).
Proof.
  etransitivity; [apply prod_len|]. rewrite gall_length, gcount_f. rewrite (prod_len _ _ keys_all), keys_length, numbers_length. unfold game_count.
  generalize (256 ^ 64 * fr_modulus) (last_time d + 1) (fcount d n nb nk nu ls q p). intros. ring.
Qed.

Definition solver_all (d n nb nk nu ls q p : nat) : list kcoins :=
  list_prod (list_prod (list_prod (list_prod keys_all (numbers (last_time d + 1))) (map N.succ (numbers (last_time d)))) (seq 0 q))
    (list_prod (list_prod (list_prod (list_prod (list_prod (numbers fr_modulus) (words (numbers fr_modulus) (d + 1))) (words (numbers fr_modulus) n)) (words hash_values q)) (words (numbers fr_modulus) p))
       (list_prod (list_prod (words (numbers 256) ls) (list_prod (list_prod (words hash_values nb) (words hash_values nk)) (words hash_values nu))) (words (numbers (256 ^ 64 / fr_modulus + 1)) n))).
Lemma in_numbers_any K n l : In l (words (numbers K) n) <-> (length l = n /\ Forall (fun x => x < K) l).
Proof. etransitivity; [apply words_in|]. split; intros [H1 H2]; (split; [exact H1|]); eapply Forall_impl; try exact H2; intros x; cbv beta; rewrite numbers_in; exact (fun H => H). Qed.
Lemma succ_in K t : In t (map N.succ (numbers K)) <-> 1 <= t <= K.
Proof.
  rewrite in_map_iff. split.
  - intros (x & <- & Hx). apply numbers_in in Hx. lia.
  - intros H. exists (N.pred t). split; [lia|]. apply numbers_in. lia.
Qed.
Lemma solver_all_in d n nb nk nu ls q p k : In k (solver_all d n nb nk nu ls q p) <-> kcoins_any d n nb nk nu ls q p k.
Proof.
  destruct k as [[[[[bx b] tb] tx] i] [[[[[y ys] rs] hs] rho] [[seed [[B ks] us]] ds]]]. unfold solver_all, kcoins_any.
  rewrite (in_prod_iff _ _ (bx, b, tb, tx, i) (y, ys, rs, hs, rho, (seed, (B, ks, us), ds))), (in_prod_iff _ _ (bx, b, tb, tx) i), (in_prod_iff _ _ (bx, b, tb) tx), (in_prod_iff _ _ (bx, b) tb).
  rewrite (in_prod_iff _ _ (y, ys, rs, hs, rho) (seed, (B, ks, us), ds)), (in_prod_iff _ _ (y, ys, rs, hs) rho), (in_prod_iff _ _ (y, ys, rs) hs), (in_prod_iff _ _ (y, ys) rs), (in_prod_iff _ _ y ys).
  rewrite (in_prod_iff _ _ (seed, (B, ks, us)) ds), (in_prod_iff _ _ seed (B, ks, us)), (in_prod_iff _ _ (B, ks) us), (in_prod_iff _ _ B ks).
  pose proof (keys_in bx b) as K1. pose proof (numbers_in (last_time d + 1) tb) as K2. pose proof (succ_in (last_time d) tx) as K3. pose proof (in_seq q 0 i) as K4.
  pose proof (numbers_in fr_modulus y) as K5. pose proof (in_numbers_words (d + 1) ys) as K6. pose proof (in_numbers_words n rs) as K7. pose proof (in_blocks q hs) as K8.
  pose proof (in_numbers_words p rho) as K9. pose proof (in_bytes ls seed) as K10. pose proof (in_blocks nb B) as K11. pose proof (in_blocks nk ks) as K12. pose proof (in_blocks nu us) as K13.
  pose proof (in_numbers_any (256 ^ 64 / fr_modulus + 1) n ds) as K14.
  split.
  - intros [[[[H1 H2] H3] H4] [[[[[H5 H6] H7] H8] H9] [[H10 [[H11 H12] H13]] H14]]].
    apply K1 in H1. apply K2 in H2. apply K3 in H3. apply K4 in H4. apply K5 in H5. apply K6 in H6. apply K7 in H7. apply K8 in H8. apply K9 in H9. apply K10 in H10. apply K11 in H11. apply K12 in H12. apply K13 in H13. apply K14 in H14.
    split; [exact H1|]. split; [lia|]. split; [exact H3|]. split; [lia|]. split; [split; [exact H5|split; [exact H6|split; [exact H7|split; [exact H8|exact H9]]]]|].
    split; [exact H10|]. split; [exact H11|]. split; [exact H12|]. split; [exact H13|exact H14].
  - intros (H1 & H2 & H3 & H4 & (H5 & H6 & H7 & H8 & H9) & H10 & H11 & H12 & H13 & H14).
    split; [split; [split; [split; [apply K1, H1|apply K2; lia]|apply K3, H3]|apply K4; lia]|].
    split; [split; [split; [split; [split; [apply K5, H5|apply K6, H6]|apply K7, H7]|apply K8, H8]|apply K9, H9]|].
    split; [split; [apply K10, H10|split; [split; [apply K11, H11|apply K12, H12]|apply K13, H13]]|apply K14, H14].
Qed.
Lemma succ_nodup K : NoDup (map N.succ (numbers K)).
Proof. apply FinFun.Injective_map_NoDup; [intros a b; apply N.succ_inj|apply numbers_nodup]. Qed.
Lemma solver_all_nodup d n nb nk nu ls q p : NoDup (solver_all d n nb nk nu ls q p).
Proof.
  assert (HH : forall n, NoDup (words hash_values n)) by (intros; apply words_nodup, hash_values_nodup).
  assert (HN : forall K n, NoDup (words (numbers K) n)) by (intros; apply words_nodup, numbers_nodup).
  unfold solver_all. apply prod_nodup.
  - apply prod_nodup; [|apply seq_NoDup]. apply prod_nodup; [|apply succ_nodup]. apply prod_nodup; [apply keys_nodup|apply numbers_nodup].
  - apply prod_nodup.
    + apply prod_nodup; [|apply HN]. apply prod_nodup; [|apply HH]. apply prod_nodup; [|apply HN]. apply prod_nodup; [apply numbers_nodup|apply HN].
    + apply prod_nodup; [|apply HN]. apply prod_nodup; [apply HN|]. apply prod_nodup; [|apply HH]. apply prod_nodup; apply HH.
Qed.
Lemma solver_all_length d n nb nk nu ls q p : N.of_nat (length (solver_all d n nb nk nu ls q p)) = solver_count d n nb nk nu ls q p.
Proof.
  assert (HW : forall n, N.of_nat (length (words hash_values n)) = (256 ^ 64) ^ N.of_nat n) by (intros k; etransitivity; [apply words_length|rewrite hash_values_length; reflexivity]).
  assert (NW : forall K n, N.of_nat (length (words (numbers K) n)) = K ^ N.of_nat n) by (intros K k; etransitivity; [apply words_length|rewrite numbers_length; reflexivity]).
  etransitivity; [apply prod_len|]. unfold solver_count.
  transitivity ((256 ^ 64 * fr_modulus * (last_time d + 1) * last_time d * N.of_nat q)
    * ((fr_modulus * fr_modulus ^ N.of_nat (d + 1) * fr_modulus ^ N.of_nat n * (256 ^ 64) ^ N.of_nat q * fr_modulus ^ N.of_nat p)
       * (256 ^ N.of_nat ls * ((256 ^ 64) ^ N.of_nat nb * (256 ^ 64) ^ N.of_nat nk * (256 ^ 64) ^ N.of_nat nu) * (256 ^ 64 / fr_modulus + 1) ^ N.of_nat n))).
  - apply f_equal2.
    + etransitivity; [apply prod_len|]. apply f_equal2; [|rewrite seq_length; reflexivity].
      etransitivity; [apply prod_len|]. apply f_equal2; [|rewrite map_length; apply numbers_length].
      etransitivity; [apply prod_len|]. apply f_equal2; [apply keys_length|apply numbers_length].
    + etransitivity; [apply prod_len|]. apply f_equal2.
      * etransitivity; [apply prod_len|]. apply f_equal2; [|apply NW]. etransitivity; [apply prod_len|]. apply f_equal2; [|apply HW].
        etransitivity; [apply prod_len|]. apply f_equal2; [|apply NW]. etransitivity; [apply prod_len|]. apply f_equal2; [apply numbers_length|apply NW].
      * etransitivity; [apply prod_len|]. apply f_equal2; [|apply NW]. etransitivity; [apply prod_len|]. apply f_equal2; [apply NW|].
        etransitivity; [apply prod_len|]. apply f_equal2; [|apply HW]. etransitivity; [apply prod_len|]. apply f_equal2; apply HW.
  - apply f_equal2; [reflexivity|]. replace (d + 2 + n + p)%nat with (S (d + 1) + n + p)%nat by lia.
    rewrite (Nat2N.inj_add (S (d + 1) + n)), (Nat2N.inj_add (S (d + 1))), (Nat2N.inj_succ (d + 1)), (Nat2N.inj_add (q + nb + nk)), (Nat2N.inj_add (q + nb)), (Nat2N.inj_add q nb), !N.pow_add_r, N.pow_succ_r by lia.
    generalize ((256 ^ 64 / fr_modulus + 1) ^ N.of_nat n) (fr_modulus ^ N.of_nat (d + 1)) (fr_modulus ^ N.of_nat n) (fr_modulus ^ N.of_nat p) ((256 ^ 64) ^ N.of_nat q) ((256 ^ 64) ^ N.of_nat nb)
      ((256 ^ 64) ^ N.of_nat nk) ((256 ^ 64) ^ N.of_nat nu) (256 ^ N.of_nat ls) fr_modulus. intros. ring.
Qed.
Lemma coins_counted : forall d n nb nk nu ls q p,
  (exists all : list gcoins, NoDup all /\ (forall w, In w all <-> gcoins_any d n nb nk nu ls q p w)
     /\ N.of_nat (length all) = game_count d n nb nk nu ls q p * (last_time d + 1))
  /\ (exists all : list kcoins, NoDup all /\ (forall k, In k all <-> kcoins_any d n nb nk nu ls q p k)
     /\ N.of_nat (length all) = solver_count d n nb nk nu ls q p).
Proof.
  intros. split.
  - exists (game_all d n nb nk nu ls q p). split; [apply game_all_nodup|]. split; [intros w; apply game_all_in|apply game_all_length].
  - exists (solver_all d n nb nk nu ls q p). split; [apply solver_all_nodup|]. split; [intros w; apply solver_all_in|apply solver_all_length].
Qed.

(** * Numbers *)
Lemma bernoulli K n : (n <= K + 1)%N -> (K + 1 - n) * (K + 1) ^ n <= (K + 1) * K ^ n.
Proof.
  induction n as [|n IH] using N.peano_ind; intros Hn; [rewrite !N.pow_0_r; lia|]. specialize (IH ltac:(lia)). rewrite !N.pow_succ_r by lia.
  transitivity (K * ((K + 1) * K ^ n)); [|apply N.eq_le_incl; ring]. transitivity (K * ((K + 1 - n) * (K + 1) ^ n)); [|apply N.mul_le_mono_l, IH].
  rewrite !N.mul_assoc. apply N.mul_le_mono_r. nia.
Qed.
Lemma bernoulli_two K n : 2 * n <= K -> (K + 1) ^ n <= 2 * K ^ n.
Proof.
  intros H. pose proof (bernoulli K n ltac:(lia)) as B. revert B. generalize ((K + 1) ^ n) (K ^ n). intros a b B. assert ((K + 1) * a <= 2 * ((K + 1 - n) * a)) by nia. nia.
Qed.
Lemma each_tight : (256 ^ 64 / fr_modulus + 1) * fr_modulus * 2 ^ 256 <= 256 ^ 64 * (2 ^ 256 + 1).
Proof.
  pose proof (N.mul_div_le (256 ^ 64) fr_modulus fr_modulus_nz) as H1. pose proof fr_modulus_bound as H2. replace (256 ^ 64) with (2 ^ 256 * 2 ^ 256) in * by reflexivity. replace (256 ^ 32) with (2 ^ 256) in H2 by reflexivity.
  revert H1 H2. generalize (2 ^ 256 * 2 ^ 256 / fr_modulus) fr_modulus (2 ^ 256). intros c r K H1 H2. nia.
Qed.
(** The solver's coins are at most twice as many as those of the game, for each guess. *)
Lemma counts_twice d n nb nk nu ls q p : N.of_nat n <= 2 ^ 255 ->
  solver_count d n nb nk nu ls q p <= 2 * ((last_time d + 1) * last_time d * N.of_nat q) * game_count d n nb nk nu ls q p.
Proof.
  intros Hn. unfold solver_count, game_count, fcount.
  assert (H : (fr_modulus ^ N.of_nat n * (256 ^ 64 / fr_modulus + 1) ^ N.of_nat n) <= 2 * (256 ^ 64) ^ N.of_nat n).
  { rewrite <- N.pow_mul_l. assert (0 < (2 ^ 256) ^ N.of_nat n) by (apply N.neq_0_lt_0, N.pow_nonzero; discriminate).
    apply (N.mul_le_mono_pos_r _ _ ((2 ^ 256) ^ N.of_nat n)); [assumption|]. rewrite <- N.pow_mul_l.
    transitivity ((256 ^ 64 * (2 ^ 256 + 1)) ^ N.of_nat n); [apply N.pow_le_mono_l; rewrite (N.mul_comm fr_modulus); exact each_tight|].
    rewrite N.pow_mul_l. pose proof (bernoulli_two (2 ^ 256) (N.of_nat n)) as B. assert (2 * N.of_nat n <= 2 ^ 256) by (change (2 ^ 256) with (2 * 2 ^ 255); lia). specialize (B H0).
    revert B. generalize ((2 ^ 256 + 1) ^ N.of_nat n) ((2 ^ 256) ^ N.of_nat n) ((256 ^ 64) ^ N.of_nat n). intros; nia. }
  replace (d + 2 + n + p)%nat with (d + 2 + p + n)%nat by lia. replace (q + n + nb + nk + nu)%nat with (q + nb + nk + nu + n)%nat by lia.
  rewrite (Nat2N.inj_add (d + 2 + p)), (Nat2N.inj_add (q + nb + nk + nu)), !N.pow_add_r. revert H.
  generalize (fr_modulus ^ N.of_nat n) ((256 ^ 64 / fr_modulus + 1) ^ N.of_nat n) ((256 ^ 64) ^ N.of_nat n) (fr_modulus ^ N.of_nat (d + 2 + p)) ((256 ^ 64) ^ N.of_nat (q + nb + nk + nu)) (256 ^ N.of_nat ls) (256 ^ 64 * fr_modulus) (last_time d) (last_time d + 1) (N.of_nat q).
  intros a b c A B C X l t Q H. replace (X * t * l * Q * (A * a * B * C * b)) with (X * t * l * Q * A * B * C * (a * b)) by ring.
  replace (2 * (t * l * Q) * (X * (A * (B * c) * C))) with (X * t * l * Q * A * B * C * (2 * c)) by ring. apply N.mul_le_mono_l, H.
Qed.

(** * Probabilities *)
Lemma in_q a b : a <= b <-> (inject_Z (Z.of_N a) <= inject_Z (Z.of_N b))%Q.
Proof. rewrite <- Zle_Qle. lia. Qed.
Lemma q_pos a : 0 < a -> (0 < inject_Z (Z.of_N a))%Q.
Proof. intros H. change 0%Q with (inject_Z 0). rewrite <- Zlt_Qlt. lia. Qed.
Lemma q_mul a b : (inject_Z (Z.of_N (a * b)) == inject_Z (Z.of_N a) * inject_Z (Z.of_N b))%Q.
Proof. rewrite N2Z.inj_mul, inject_Z_mult. reflexivity. Qed.
Lemma q_add a b : (inject_Z (Z.of_N (a + b)) == inject_Z (Z.of_N a) + inject_Z (Z.of_N b))%Q.
Proof. rewrite N2Z.inj_add, inject_Z_plus. reflexivity. Qed.
(** [lost * r <= k * F] is [lost / F <= k / r]. *)
Lemma share_le a r k F : 0 < r -> 0 < F -> a * r <= k * F -> (share a F <= share k r)%Q.
Proof.
  intros Hr HF H. unfold share. apply Qle_shift_div_r; [apply q_pos, HF|]. apply in_q in H. rewrite !q_mul in H.
  setoid_replace (inject_Z (Z.of_N k) / inject_Z (Z.of_N r) * inject_Z (Z.of_N F))%Q with (inject_Z (Z.of_N k) * inject_Z (Z.of_N F) / inject_Z (Z.of_N r))%Q by (field; pose proof (q_pos r Hr); lra).
  apply Qle_shift_div_l; [apply q_pos, Hr|exact H].
Qed.
Lemma share_nonneg a b : (0 <= share a b)%Q.
Proof.
  unfold share. destruct (N.eq_0_gt_0_cases b) as [->|H].
  - change (inject_Z (Z.of_N 0)) with 0%Q. unfold Qdiv. change (/ 0)%Q with 0%Q. lra.
  - apply Qle_shift_div_l; [apply q_pos, H|]. rewrite Qmult_0_l. change 0%Q with (inject_Z (Z.of_N 0)). apply in_q. lia.
Qed.
Lemma share_mul a b K : 0 < b -> (share (K * a) b == inject_Z (Z.of_N K) * share a b)%Q.
Proof. intros H. unfold share. rewrite q_mul. field. pose proof (q_pos b H). lra. Qed.
Lemma share_add a a' b : 0 < b -> (share (a + a') b == share a b + share a' b)%Q.
Proof. intros H. unfold share. rewrite q_add. field. pose proof (q_pos b H). lra. Qed.
Lemma share_mono a a' b : 0 < b -> a <= a' -> (share a b <= share a' b)%Q.
Proof.
  intros H Ha. unfold share. apply Qle_shift_div_r; [apply q_pos, H|]. setoid_replace (inject_Z (Z.of_N a') / inject_Z (Z.of_N b) * inject_Z (Z.of_N b))%Q with (inject_Z (Z.of_N a')) by (field; pose proof (q_pos b H); lra).
  apply in_q, Ha.
Qed.
Lemma share_scale a S K F eps : 0 < S -> 0 < F -> S <= K * F -> (share a S <= eps)%Q -> (share a F <= inject_Z (Z.of_N K) * eps)%Q.
Proof.
  intros HS HF H He. assert (E0 : (0 <= eps)%Q) by (eapply Qle_trans; [apply share_nonneg|exact He]).
  assert (H1 : (inject_Z (Z.of_N a) <= eps * inject_Z (Z.of_N S))%Q).
  { pose proof (q_pos S HS) as PS. unfold share in He. setoid_replace (inject_Z (Z.of_N a)) with (inject_Z (Z.of_N a) / inject_Z (Z.of_N S) * inject_Z (Z.of_N S))%Q by (field; lra). apply Qmult_le_compat_r; [exact He|lra]. }
  unfold share. apply Qle_shift_div_r; [apply q_pos, HF|]. apply in_q in H. rewrite q_mul in H.
  eapply Qle_trans; [exact H1|]. setoid_replace (inject_Z (Z.of_N K) * eps * inject_Z (Z.of_N F))%Q with (eps * (inject_Z (Z.of_N K) * inject_Z (Z.of_N F)))%Q by ring.
  rewrite (Qmult_comm eps), (Qmult_comm eps). apply Qmult_le_compat_r; assumption.
Qed.

(** C107 *)
Lemma game_advantage : forall (E : env) (L : env_laws E) m (g : G1 E) d cs adv n nb nk nu ls q p s l eps,
  g1_insub g = true -> (1 <= d <= 32)%nat -> (cs = 0 \/ cs = 1) -> (32 <= ls)%nat -> (1 <= nu)%nat -> (1 <= q)%nat -> N.of_nat n <= 2 ^ 255 ->
  (forall pp pk pop, ispeaks s l (adv pp pk pop)) ->
  solver_at_most s (cost_bound d p (2 * s) l) g d cs adv n nb nk nu ls q p eps ->
  game_at_most m g d cs adv n nb nk nu ls q p
    (inject_Z (Z.of_N (2 * (last_time d + 1) * last_time d * N.of_nat q)) * eps
     + inject_Z (Z.of_N (last_time d + 1))
       * (share (N.of_nat (q * (q - 1) + p + 1)) fr_modulus + share (N.of_nat (nk * (nk + q + 2) + nu * nu + 2 * q)) (256 ^ 22)))%Q.
Proof.
  intros E L m g d cs adv n nb nk nu ls q p s l eps Hg Hd Hcs Hls Hnu Hq Hn Hadv Heps ws Nw Fw.
  destruct (game_solved E L m g d cs adv n nb nk nu ls q p s l ws Hg Hd Hcs Hls Hadv Nw Fw) as (zs & Hl & Nz & Fz).
  specialize (Heps zs Nz Fz).
  assert (Pf : 0 < fr_modulus) by (apply N.neq_0_lt_0, fr_modulus_nz).
  assert (P2 : 0 < 256 ^ 64) by (apply N.neq_0_lt_0, N.pow_nonzero; discriminate).
  assert (PX : 0 < 256 ^ 64 * fr_modulus) by (apply N.mul_pos_pos; assumption).
  assert (PF : 0 < fcount d n nb nk nu ls q p).
  { unfold fcount. apply N.mul_pos_pos; [apply N.mul_pos_pos|]; apply N.neq_0_lt_0, N.pow_nonzero; [apply fr_modulus_nz|apply N.neq_0_lt_0, P2|discriminate]. }
  assert (PG : 0 < game_count d n nb nk nu ls q p) by (apply N.mul_pos_pos; assumption).
  assert (PL : 1 <= last_time d) by (unfold last_time; pose proof (pow2_le 1 d ltac:(lia)); change (pow2 1) with 2 in *; lia).
  assert (PS : 0 < solver_count d n nb nk nu ls q p).
  { unfold solver_count.
    repeat apply N.mul_pos_pos; try (apply N.neq_0_lt_0, N.pow_nonzero); try lia; try apply fr_modulus_nz. }
  pose proof (scalars_rare d n nb nk nu ls q p) as R1. pose proof (clean_rare d n nb nk nu ls q p Hnu ltac:(lia)) as R2.
  apply share_le in R1; [|exact Pf|exact PF]. apply share_le in R2; [|reflexivity|exact PF].
  eapply Qle_trans; [apply (share_mono _ _ _ PG Hl)|]. rewrite (share_add _ _ _ PG).
  apply Qplus_le_compat.
  - apply (share_scale _ _ _ _ _ PS PG) with (2 := Heps). pose proof (counts_twice d n nb nk nu ls q p Hn) as H. rewrite !N.mul_assoc in H. exact H.
  - apply (share_scale _ (fcount d n nb nk nu ls q p * (256 ^ 64 * fr_modulus * (last_time d + 1)))).
    + apply N.mul_pos_pos; [exact PF|]. apply N.mul_pos_pos; [exact PX|lia].
    + exact PG.
    + unfold game_count. apply N.eq_le_incl. generalize (256 ^ 64 * fr_modulus) (last_time d + 1) (fcount d n nb nk nu ls q p). intros. ring.
    + assert (PY : 0 < 256 ^ 64 * fr_modulus * (last_time d + 1)) by (apply N.mul_pos_pos; [exact PX|lia]).
      revert PY. generalize (256 ^ 64 * fr_modulus * (last_time d + 1)). intros Y PY.
      eapply Qle_trans; [|apply (Qplus_le_compat _ _ _ _ R1 R2)]. rewrite <- (share_add _ _ _ PF).
      unfold share. rewrite !q_mul. apply Qle_lteq. right. field. split; pose proof (q_pos _ PF); pose proof (q_pos _ PY); lra.
Qed.

(** Whatever the forger, 1 is a bound. *)
Lemma solver_at_most_one : forall (E : env) s c (g : G1 E) d cs adv n nb nk nu ls q p,
  (1 <= d)%nat -> (1 <= q)%nat -> solver_at_most s c g d cs adv n nb nk nu ls q p 1.
Proof.
  intros E s c g d cs adv n nb nk nu ls q p Hd Hq zs Nz Fz.
  assert (H : (length zs <= length (solver_all d n nb nk nu ls q p))%nat).
  { apply NoDup_incl_length; [exact Nz|]. intros k Hk. apply solver_all_in. rewrite Forall_forall in Fz. exact (proj1 (Fz k Hk)). }
  assert (H' : N.of_nat (length zs) <= solver_count d n nb nk nu ls q p) by (rewrite <- solver_all_length; lia).
  destruct (N.eq_0_gt_0_cases (solver_count d n nb nk nu ls q p)) as [E0|P].
  - rewrite E0. replace (N.of_nat (length zs)) with 0 by lia. vm_compute. discriminate.
  - unfold share. apply Qle_shift_div_r; [apply q_pos, P|]. rewrite Qmult_1_l. apply in_q, H'.
Qed.
(** The lost coins in numbers: depth 32 and up to 2^40 questions, points, prng states and other values. *)
Lemma lost_in_numbers : forall d nk nu q p, (1 <= d <= 32)%nat ->
  N.of_nat nk <= 2 ^ 40 -> N.of_nat nu <= 2 ^ 40 -> N.of_nat q <= 2 ^ 40 -> N.of_nat p <= 2 ^ 40 ->
  (inject_Z (Z.of_N (last_time d + 1))
   * (share (N.of_nat (q * (q - 1) + p + 1)) fr_modulus + share (N.of_nat (nk * (nk + q + 2) + nu * nu + 2 * q)) (256 ^ 22)) <= 1 # (2 ^ 61))%Q.
Proof.
  intros d nk nu q p Hd Hk Hu Hq Hp.
  assert (Hl : last_time d + 1 <= 2 ^ 32).
  { unfold last_time. pose proof (pow2_le d 32 ltac:(lia)) as H. change (pow2 32) with (2 ^ 32) in H. pose proof (pow2_pos d). lia. }
  assert (H1 : N.of_nat (q * (q - 1) + p + 1) <= 2 ^ 81).
  { assert (N.of_nat (q * (q - 1) + p + 1) <= N.of_nat q * N.of_nat q + N.of_nat p + 1) by nia. revert H Hq Hp. change (2 ^ 81) with (2 * (2 ^ 40 * 2 ^ 40)). generalize (N.of_nat q) (N.of_nat p) (N.of_nat (q * (q - 1) + p + 1)). intros a b c.
    intros H Ha Hb. assert (a * a <= 2 ^ 40 * 2 ^ 40) by (apply N.mul_le_mono; assumption). assert (2 ^ 40 + 1 <= 2 ^ 40 * 2 ^ 40) by (vm_compute; discriminate). lia. }
  assert (H2 : N.of_nat (nk * (nk + q + 2) + nu * nu + 2 * q) <= 2 ^ 82).
  { rewrite !Nat2N.inj_add, !Nat2N.inj_mul, !Nat2N.inj_add. change (N.of_nat 2) with 2. revert Hk Hu Hq. generalize (N.of_nat nk) (N.of_nat nu) (N.of_nat q). intros a b c Ha Hb Hc.
    assert (a * (a + c + 2) <= 2 ^ 40 * (2 ^ 40 + 2 ^ 40 + 2)) by (apply N.mul_le_mono; lia). assert (b * b <= 2 ^ 40 * 2 ^ 40) by (apply N.mul_le_mono; assumption).
    assert (2 ^ 40 * (2 ^ 40 + 2 ^ 40 + 2) + 2 ^ 40 * 2 ^ 40 + 2 * 2 ^ 40 <= 2 ^ 82) by (vm_compute; discriminate). lia. }
  apply (share_mono _ _ fr_modulus) in H1; [|reflexivity]. apply (share_mono _ _ (256 ^ 22)) in H2; [|reflexivity]. apply in_q in Hl.
  eapply Qle_trans; [apply Qmult_le_compat_r; [exact Hl|]|].
  - pose proof (share_nonneg (N.of_nat (q * (q - 1) + p + 1)) fr_modulus). pose proof (share_nonneg (N.of_nat (nk * (nk + q + 2) + nu * nu + 2 * q)) (256 ^ 22)). lra.
  - eapply Qle_trans.
    + rewrite Qmult_comm. apply Qmult_le_compat_r; [apply Qplus_le_compat; [exact H1|exact H2]|]. vm_compute. discriminate.
    + vm_compute. discriminate.
Qed.
