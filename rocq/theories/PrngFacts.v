(** Proofs about src/prng.rs. *)
From Verif Require Import Base Env Hkdf Prng SpecPrng.
From Coq Require Import ZifyBool ZifyNat ZifyN.
Local Open Scope N_scope.
Local Arguments N.add : simpl never.
Local Arguments N.mul : simpl never.
Local Arguments N.sub : simpl never.

(** * OS2IP *)
Lemma os2ip_acc l : forall x, fold_left (fun x b => x * 256 + b) l x = x * 256 ^ N.of_nat (length l) + os2ip l.
Proof.
  unfold os2ip. induction l as [|b l IH]; intros x; cbn [fold_left length].
  - change (256 ^ N.of_nat 0) with 1. lia.
  - rewrite (IH (x * 256 + b)), (IH (0 * 256 + b)).
    rewrite Nat2N.inj_succ, N.pow_succ_r'. lia.
Qed.
Lemma os2ip_cons b l : os2ip (b :: l) = b * 256 ^ N.of_nat (length l) + os2ip l.
Proof. unfold os2ip at 1. cbn [fold_left]. rewrite os2ip_acc. lia. Qed.

Lemma be_sum_os2ip l : be_sum l = os2ip l.
Proof.
  induction l as [|b l IH]; [reflexivity|]. rewrite os2ip_cons. cbn [be_sum].
  rewrite IH, N.shiftl_mul_pow2, N.pow_mul_r. reflexivity.
Qed.

Lemma land255 x : N.land x 255 = x mod 256.
Proof. change 255 with (N.ones 8). rewrite N.land_ones. reflexivity. Qed.

Fixpoint hor (y : N) (n : nat) : N :=
  match n with O => 0 | S n' => hor (y / 256) n' * 256 + y mod 256 end.
Lemma hor_spec n : forall y, hor y n = y mod 256 ^ N.of_nat n.
Proof.
  induction n; intros y; cbn [hor].
  - change (256 ^ N.of_nat 0) with 1. rewrite N.mod_1_r. reflexivity.
  - rewrite IHn, Nat2N.inj_succ, N.pow_succ_r'.
    rewrite N.mod_mul_r by (try apply N.pow_nonzero; lia). lia.
Qed.

Lemma u512_nth x i : (i < 64)%nat ->
  nth i (u512_to_be x) 0 = (x / 256 ^ N.of_nat (63 - i)) mod 256.
Proof.
  intros Hi. unfold u512_to_be.
  rewrite (nth_indep _ 0 (N.land (N.shiftr x (8 * N.of_nat (63 - 0))) 255)) by (rewrite map_length, seq_length; exact Hi).
  rewrite (map_nth (fun i => N.land (N.shiftr x (8 * N.of_nat (63 - i))) 255)).
  rewrite seq_nth by exact Hi. rewrite land255, N.shiftr_div_pow2, N.pow_mul_r. reflexivity.
Qed.

Lemma div_div256 x k : x / 256 ^ N.of_nat k / 256 = x / 256 ^ N.of_nat (S k).
Proof.
  rewrite N.div_div by (try apply N.pow_nonzero; lia).
  rewrite Nat2N.inj_succ, N.pow_succ_r'. f_equal. lia.
Qed.

Lemma limb_spec x k : (k <= 56)%nat ->
  limb (u512_to_be x) k = (x / 256 ^ N.of_nat (56 - k)) mod 18446744073709551616.
Proof.
  intros Hk. change 18446744073709551616 with (256 ^ N.of_nat 8). rewrite <- hor_spec.
  unfold limb. cbn [seq fold_left hor].
  rewrite !div_div256. rewrite !u512_nth by lia.
  replace (63 - (k + 7))%nat with (56 - k)%nat by lia.
  replace (63 - (k + 6))%nat with (S (56 - k))%nat by lia.
  replace (63 - (k + 5))%nat with (S (S (56 - k)))%nat by lia.
  replace (63 - (k + 4))%nat with (S (S (S (56 - k))))%nat by lia.
  replace (63 - (k + 3))%nat with (S (S (S (S (56 - k)))))%nat by lia.
  replace (63 - (k + 2))%nat with (S (S (S (S (S (56 - k))))))%nat by lia.
  replace (63 - (k + 1))%nat with (S (S (S (S (S (S (56 - k)))))))%nat by lia.
  replace (63 - (k + 0))%nat with (S (S (S (S (S (S (S (56 - k))))))))%nat by lia.
  lia.
Qed.

Lemma u512_top x : x < 256 ^ 32 -> firstn 32 (u512_to_be x) = repeat 0 32.
Proof.
  intros Hx. apply nth_ext with (d := 0) (d' := 0).
  - unfold u512_to_be. rewrite firstn_length, map_length, seq_length, repeat_length. reflexivity.
  - intros n Hn. unfold u512_to_be in Hn. rewrite firstn_length, map_length, seq_length in Hn.
    assert (Hn' : (n < 32)%nat) by lia.
    rewrite nth_repeat.
    assert (Hnf : nth n (firstn 32 (u512_to_be x)) 0 = nth n (u512_to_be x) 0).
    { rewrite <- (firstn_skipn 32 (u512_to_be x)) at 2. rewrite app_nth1; [reflexivity|].
      unfold u512_to_be. rewrite firstn_length, map_length, seq_length. lia. }
    rewrite Hnf, u512_nth by lia.
    rewrite N.div_small; [reflexivity|].
    apply N.lt_le_trans with (1 := Hx). apply N.pow_le_mono_r; lia.
Qed.

Lemma u512_limbs x : x < 256 ^ 32 ->
  fold_right (fun l acc => l + 18446744073709551616 * acc) 0
    [limb (u512_to_be x) 56; limb (u512_to_be x) 48; limb (u512_to_be x) 40; limb (u512_to_be x) 32] = x.
Proof.
  intros Hx. rewrite !limb_spec by lia. cbn [fold_right].
  change (N.of_nat (56 - 56)) with 0. change (N.of_nat (56 - 48)) with 8.
  change (N.of_nat (56 - 40)) with 16. change (N.of_nat (56 - 32)) with 24.
  change (256 ^ 0) with 1. rewrite N.div_1_r.
  set (q := 18446744073709551616) in *.
  change (256 ^ 8) with q. replace (256 ^ 16) with (q * q) by reflexivity.
  replace (256 ^ 24) with (q * q * q) by reflexivity.
  rewrite <- !N.div_div by (unfold q; lia).
  assert (H : x < q * q * q * q) by exact Hx.
  assert (Hq : q <> 0) by (unfold q; lia).
  pose proof (N.div_mod x q Hq) as H1. pose proof (N.div_mod (x / q) q Hq) as H2.
  pose proof (N.div_mod (x / q / q) q Hq) as H3.
  assert (H4 : x / q / q / q mod q = x / q / q / q).
  { apply N.mod_small. rewrite !N.div_div by (unfold q; lia).
    apply N.div_lt_upper_bound; [unfold q; lia|]. lia. }
  rewrite H4. nia.
Qed.

Lemma p_bytes_val : be_sum p_bytes = fr_modulus.
Proof. vm_compute. reflexivity. Qed.
Lemma fr_modulus_bound : fr_modulus < 256 ^ 32.
Proof. reflexivity. Qed.
Lemma fr_modulus_nz : fr_modulus <> 0.
Proof. discriminate. Qed.

Lemma bytes_eqb_eq a b : bytes_eqb a b = true <-> a = b.
Proof. unfold bytes_eqb. destruct (list_eq_dec N.eq_dec a b); split; congruence. Qed.

Lemma os2ip_mod_p_spec l : (length l <= 64)%nat -> os2ip_mod_p l = Ok (os2ip l mod fr_modulus).
Proof.
  intros Hl. unfold os2ip_mod_p, u512_from.
  replace (64 <? length l)%nat with false by lia.
  change (64 <? length p_bytes)%nat with false. cbn [bind].
  rewrite p_bytes_val, be_sum_os2ip. set (x := os2ip l mod fr_modulus).
  assert (Hx : x < fr_modulus) by (apply N.mod_lt, fr_modulus_nz).
  assert (Hx' : x < 256 ^ 32) by (apply N.lt_trans with (1 := Hx), fr_modulus_bound).
  rewrite u512_top by exact Hx'.
  replace (bytes_eqb (repeat 0 32) (repeat 0 32)) with true by (symmetry; apply bytes_eqb_eq; reflexivity).
  unfold fr_from_repr. rewrite u512_limbs by exact Hx'.
  replace (x <? fr_modulus) with true by (symmetry; apply N.ltb_lt; exact Hx). reflexivity.
Qed.

Lemma os2ip_mod_p_long l : (64 < length l)%nat -> os2ip_mod_p l = Panic P_OS2IP.
Proof.
  intros Hl. unfold os2ip_mod_p, u512_from. replace (64 <? length l)%nat with true by lia. reflexivity.
Qed.

(** * HKDF *)
Definition hash_len (H : bytes -> bytes) := forall b, length (H b) = 64%nat.

Lemma hmac_len H k b : hash_len H -> length (hmac H k b) = 64%nat.
Proof. intros HH. unfold hmac. apply HH. Qed.
Lemma rfc_hmac_len H k b : hash_len H -> length (rfc_hmac H k b) = 64%nat.
Proof. intros HH. unfold rfc_hmac. apply HH. Qed.
Lemma xor_pad_nth p : forall n k, (length k <= n)%nat ->
  xor_bytes p (pad_to n k) = map (fun i => N.lxor (nth i k 0) p) (seq 0 n).
Proof.
  induction n as [|n IH]; intros k Hk; [destruct k; [reflexivity|cbn [length] in Hk; lia]|].
  cbn [seq map]. rewrite <- seq_shift, map_map. unfold xor_bytes, pad_to in *. destruct k as [|b k].
  - specialize (IH [] ltac:(cbn [length]; lia)). cbn [app length] in *. rewrite Nat.sub_0_r in *. cbn [repeat map nth].
    rewrite IH, N.lxor_comm. f_equal. apply map_ext. intros [|i]; reflexivity.
  - cbn [length] in *. cbn [app map Nat.sub nth]. rewrite IH by lia. f_equal. apply N.lxor_comm.
Qed.
Lemma hmac_rfc H k b : hash_len H -> hmac H k b = rfc_hmac H k b.
Proof.
  intros HH. unfold hmac, rfc_hmac. destruct (128 <? length k)%nat eqn:E.
  - replace (length k <=? 128)%nat with false by lia. rewrite !xor_pad_nth by (rewrite HH; lia). reflexivity.
  - replace (length k <=? 128)%nat with true by lia. rewrite !xor_pad_nth by lia. reflexivity.
Qed.

Lemma hkdf_expand_64 H g info : hash_len H -> hkdf_expand H g info 64 = Some (hkdf_T1 H g info).
Proof.
  intros HH. unfold hkdf_expand. change (64 * 255 <? 64)%nat with false.
  change ((64 + 63) / 64)%nat with 1%nat. cbn [hkdf_blocks]. rewrite app_nil_r.
  change ([] ++ info ++ [as_u8 (N.of_nat 0) + 1]) with (info ++ [1]).
  rewrite hmac_rfc by exact HH. fold (hkdf_T1 H g info). rewrite firstn_all2; [reflexivity|]. unfold hkdf_T1. rewrite rfc_hmac_len; auto.
Qed.

Lemma hkdf_expand_128 H g info : hash_len H ->
  hkdf_expand H g info 128 = Some (hkdf_T1 H g info ++ hkdf_T2 H g info).
Proof.
  intros HH. unfold hkdf_expand. change (64 * 255 <? 128)%nat with false.
  change ((128 + 63) / 64)%nat with 2%nat. cbn [hkdf_blocks].
  change ([] ++ info ++ [as_u8 (N.of_nat 0) + 1]) with (info ++ [1]).
  change (as_u8 (N.of_nat 1) + 1) with 2.
  rewrite !hmac_rfc by exact HH. fold (hkdf_T1 H g info). fold (hkdf_T2 H g info). rewrite app_nil_r.
  rewrite firstn_all2; [reflexivity|].
  rewrite app_length. unfold hkdf_T1, hkdf_T2. rewrite !rfc_hmac_len; auto.
Qed.

Lemma T1_len H g info : hash_len H -> length (hkdf_T1 H g info) = 64%nat.
Proof. intros; unfold hkdf_T1; apply rfc_hmac_len; auto. Qed.
Lemma T2_len H g info : hash_len H -> length (hkdf_T2 H g info) = 64%nat.
Proof. intros; unfold hkdf_T2; apply rfc_hmac_len; auto. Qed.

Lemma firstn_app_len {A} n (a b : list A) : length a = n -> firstn n (a ++ b) = a.
Proof. intros <-. rewrite firstn_app, Nat.sub_diag, firstn_all, app_nil_r. reflexivity. Qed.
Lemma skipn_app_len {A} n (a b : list A) : length a = n -> skipn n (a ++ b) = b.
Proof. intros <-. rewrite skipn_app, Nat.sub_diag, skipn_all. reflexivity. Qed.

Lemma sample_then_update_spec H g info : hash_len H ->
  sample_then_update H g info = Ok (spec_scalar H g info, spec_next H g info).
Proof.
  intros HH. unfold sample_then_update, expand_or_panic. rewrite hkdf_expand_128 by exact HH. cbn [bind].
  rewrite firstn_app_len, skipn_app_len by (apply T1_len, HH).
  rewrite os2ip_mod_p_spec by (rewrite T1_len; auto). cbn [bind].
  rewrite firstn_all2 by (rewrite T2_len; auto). reflexivity.
Qed.

Lemma sample_spec H g info : hash_len H -> sample H g info = Ok (spec_scalar H g info).
Proof.
  intros HH. unfold sample, expand_or_panic. rewrite hkdf_expand_64 by exact HH. cbn [bind].
  rewrite os2ip_mod_p_spec by (rewrite T1_len; auto). reflexivity.
Qed.

Lemma rerandomize_spec H g seed info : hash_len H ->
  rerandomize H g seed info = Ok (spec_rerandomize H g seed info).
Proof.
  intros HH. unfold rerandomize, expand_or_panic. rewrite hkdf_expand_128 by exact HH. cbn [bind].
  rewrite firstn_app_len, skipn_app_len by (apply T1_len, HH).
  rewrite (firstn_all2 (hkdf_T2 H g info)) by (rewrite T2_len; auto).
  unfold hkdf_extract. rewrite firstn_all2 by (rewrite hmac_len; auto). rewrite hmac_rfc by exact HH. reflexivity.
Qed.

Lemma prng_init_spec H seed salt : hash_len H -> prng_init H seed salt = rfc_hmac H salt seed.
Proof.
  intros HH. unfold prng_init, hkdf_extract. rewrite <- hmac_rfc by exact HH. apply firstn_all2. rewrite hmac_len; auto.
Qed.

Lemma spec_scalar_lt H g info : spec_scalar H g info < fr_modulus.
Proof. apply N.mod_lt, fr_modulus_nz. Qed.
