(** Lemmas behind Properties_Help.v. *)
From Coq Require Import String Sorted.
From Coq Require Import ZifyBool ZifyN ZifyNat.
From Verif Require Import Base Env Time Hkdf Prng SpecPrng SubKey SecretKey Keys Sig SpecHelp PrngFacts TimeFacts.
Local Open Scope N_scope.

(** u64 arithmetic. *)
Lemma arithmetic_exact : forall m a b, a < 2 ^ 64 -> b < 2 ^ 64 ->
  add64 m a b = u64_of m (Z.of_N a + Z.of_N b) /\ sub64 m a b = u64_of m (Z.of_N a - Z.of_N b) /\ mul64 m a b = u64_of m (Z.of_N a * Z.of_N b).
Proof.
  intros m a b Ha Hb. unfold add64, sub64, mul64, u64_of, ovf, two64. change (2 ^ 64)%Z with 18446744073709551616%Z.
  change (2 ^ 64) with 18446744073709551616 in Ha, Hb. split; [|split].
  - destruct (a + b <? 18446744073709551616) eqn:E.
    + destruct ((0 <=? Z.of_N a + Z.of_N b) && (Z.of_N a + Z.of_N b <? 18446744073709551616))%Z eqn:F; [f_equal; lia|lia].
    + destruct ((0 <=? Z.of_N a + Z.of_N b) && (Z.of_N a + Z.of_N b <? 18446744073709551616))%Z eqn:F; [lia|]. destruct m; [reflexivity|]. f_equal.
      change 18446744073709551616%Z with (Z.of_N 18446744073709551616). rewrite <- N2Z.inj_add, <- N2Z.inj_mod, N2Z.id. reflexivity.
  - destruct (b <=? a) eqn:E.
    + destruct ((0 <=? Z.of_N a - Z.of_N b) && (Z.of_N a - Z.of_N b <? 18446744073709551616))%Z eqn:F; [f_equal; lia|lia].
    + destruct ((0 <=? Z.of_N a - Z.of_N b) && (Z.of_N a - Z.of_N b <? 18446744073709551616))%Z eqn:F; [lia|]. destruct m; [reflexivity|]. f_equal.
      rewrite <- (Z.mod_unique (Z.of_N a - Z.of_N b) 18446744073709551616 (-1) (Z.of_N a - Z.of_N b + 18446744073709551616)); lia.
  - destruct (a * b <? 18446744073709551616) eqn:E.
    + destruct ((0 <=? Z.of_N a * Z.of_N b) && (Z.of_N a * Z.of_N b <? 18446744073709551616))%Z eqn:F; [f_equal; lia|lia].
    + destruct ((0 <=? Z.of_N a * Z.of_N b) && (Z.of_N a * Z.of_N b <? 18446744073709551616))%Z eqn:F; [lia|]. destruct m; [reflexivity|]. f_equal.
      change 18446744073709551616%Z with (Z.of_N 18446744073709551616). rewrite <- N2Z.inj_mul, <- N2Z.inj_mod, N2Z.id. reflexivity.
Qed.

Lemma shift_exact : forall m d,
  ((d < 64)%nat -> shl64 m d = u64_of m (2 ^ Z.of_nat d)) /\
  ((64 <= d)%nat -> shl64 Debug d = Panic P_ARITH /\ shl64 Release d = shl64 Release (d - 64)).
Proof.
  intros m d. split; intros Hd.
  - unfold shl64, u64_of. replace (d <? 64)%nat with true by lia.
    assert (0 < 2 ^ Z.of_nat d)%Z by (apply Z.pow_pos_nonneg; lia).
    assert (2 ^ Z.of_nat d < 2 ^ 64)%Z by (apply Z.pow_lt_mono_r; lia).
    destruct ((0 <=? 2 ^ Z.of_nat d) && (2 ^ Z.of_nat d <? 2 ^ 64))%Z eqn:F; [|lia]. f_equal. unfold pow2.
    apply N2Z.inj. rewrite N2Z.inj_pow, Z2N.id by lia. f_equal. lia.
  - unfold shl64. replace (d <? 64)%nat with false by lia. split; [reflexivity|]. cbn [ovf].
    assert (Hm : (d mod 64 = (d - 64) mod 64)%nat).
    { replace d with ((d - 64) + 1 * 64)%nat at 1 by lia. rewrite Nat.mod_add by lia. reflexivity. }
    rewrite Hm. destruct (d - 64 <? 64)%nat eqn:F; [|reflexivity]. rewrite Nat.mod_small by lia. reflexivity.
Qed.

(** HKDF. *)
Lemma blocks_T H prk info : hash_len H -> forall n k, (k + n <= 255)%nat ->
  hkdf_blocks H prk info (rfc_T H prk info k) k n = concat (map (rfc_T H prk info) (seq (S k) n)).
Proof.
  intros HH. induction n as [|n IH]; intros k Hk; [reflexivity|]. cbn [hkdf_blocks seq map concat].
  assert (Hu : as_u8 (N.of_nat k) + 1 = N.of_nat (S k)) by (unfold as_u8; rewrite N.mod_small by lia; lia).
  rewrite Hu, hmac_rfc by exact HH. change (rfc_hmac H prk (rfc_T H prk info k ++ info ++ [N.of_nat (S k)])) with (rfc_T H prk info (S k)).
  f_equal. apply IH. lia.
Qed.
Lemma concat_T_len H prk info : hash_len H -> forall n k, length (concat (map (rfc_T H prk info) (seq (S k) n))) = (64 * n)%nat.
Proof.
  intros HH. induction n as [|n IH]; intros k; [reflexivity|]. cbn [seq map concat]. rewrite app_length, IH. cbn [rfc_T]. rewrite rfc_hmac_len by exact HH. lia.
Qed.
Lemma hkdf_exact : forall H, (forall b, length (H b) = 64%nat) -> forall salt ikm prk info len,
  hkdf_extract H salt ikm = rfc_hmac H salt ikm /\ hkdf_expand H prk info len = rfc_expand H prk info len.
Proof.
  intros H HH salt ikm prk info len. split; [apply hmac_rfc; exact HH|]. unfold hkdf_expand, rfc_expand.
  destruct (64 * 255 <? len)%nat eqn:E.
  - replace (len <=? 255 * 64)%nat with false by lia. reflexivity.
  - replace (len <=? 255 * 64)%nat with true by lia. f_equal.
    set (n := ((len + 63) / 64)%nat). assert (Hn : (64 * n <= len + 63 < 64 * n + 64)%nat).
    { pose proof (Nat.div_mod (len + 63) 64 ltac:(lia)) as D. fold n in D. pose proof (Nat.mod_upper_bound (len + 63) 64 ltac:(lia)). lia. }
    change [] with (rfc_T H prk info 0). rewrite (blocks_T H prk info HH n 0) by lia.
    replace 255%nat with (n + (255 - n))%nat at 1 by lia. rewrite seq_app, map_app, concat_app, firstn_app, (concat_T_len H prk info HH).
    replace (len - 64 * n)%nat with 0%nat by lia. cbn [firstn]. rewrite app_nil_r. reflexivity.
Qed.

(** find_ancestor and the sub keys kept by update. *)
Lemma ancestor_loop_last {E} t : forall (l : list (subkey E)) b,
  (Forall (fun s => t < sk_t s) l /\ ancestor_loop t b l = b) \/ (exists s, last_not_after l t s /\ ancestor_loop t b l = sk_t s).
Proof.
  induction l as [|x l IH]; intros b; [left; split; [constructor|reflexivity]|]. cbn [ancestor_loop].
  destruct (sk_t x <=? t) eqn:Q.
  - destruct (IH (sk_t x)) as [[Hf He]|(s & (a & c & -> & Hs & Hc) & He)].
    + right. exists x. split; [|exact He]. exists [], l. split; [reflexivity|]. split; [lia|exact Hf].
    + right. exists s. split; [|exact He]. exists (x :: a), c. split; [reflexivity|]. split; assumption.
  - destruct (IH b) as [[Hf He]|(s & (a & c & -> & Hs & Hc) & He)].
    + left. split; [|exact He]. constructor; [lia|exact Hf].
    + right. exists s. split; [|exact He]. exists (x :: a), c. split; [reflexivity|]. split; assumption.
Qed.
Lemma find_ancestor_exact : forall (E : env) (sk : seckey E) t,
  match sec_ssk sk with
  | [] => find_ancestor sk t = Err E_SSK_EMPTY
  | s0 :: _ => (t <= sk_t s0 -> find_ancestor sk t = Err E_TIME_STAMP)
               /\ (sk_t s0 < t -> exists s, last_not_after (sec_ssk sk) t s /\ find_ancestor sk t = Ok (sk_t s))
  end.
Proof.
  intros E sk t. unfold find_ancestor. destruct (sec_ssk sk) as [|s0 l]; [reflexivity|]. split; intros H.
  - replace (t <=? sk_t s0) with true by lia. reflexivity.
  - replace (t <=? sk_t s0) with false by lia. destruct (ancestor_loop_last t l (sk_t s0)) as [[Hf He]|(s & (a & c & Hl & Hs & Hc) & He)].
    + exists s0. split; [|rewrite He; reflexivity]. exists [], l. split; [reflexivity|]. split; [lia|exact Hf].
    + exists s. split; [|rewrite He; reflexivity]. exists (s0 :: a), c. rewrite Hl. split; [reflexivity|]. split; assumption.
Qed.
(** On a list sorted by time the last one not after [t] is the latest not after [t]. *)
Lemma last_not_after_max : forall (E : env) (l : list (subkey E)) t s,
  StronglySorted N.lt (map sk_t l) -> last_not_after l t s -> forall s', In s' l -> sk_t s' <= t -> sk_t s' <= sk_t s.
Proof.
  intros E l t s Hso (a & b & -> & Hs & Hb) s' Hin Hle. apply in_app_or in Hin as [Hin|[<-|Hin]]; [|lia|].
  - rewrite map_app in Hso. cbn [map] in Hso. clear - Hso Hin. induction a as [|y a IH]; [destruct Hin|]. cbn [map app] in Hso. inversion Hso as [|? ? H1 H2]; subst.
    destruct Hin as [<-|Hin]; [|exact (IH H1 Hin)]. rewrite Forall_app in H2. destruct H2 as [_ H2]. inversion H2; subst. lia.
  - rewrite Forall_forall in Hb. specialize (Hb s' Hin). lia.
Qed.

(** Key generation, function by function, for any environment with a 64-byte hash. *)
Lemma master_key_gen_exact : forall (E : env) (pp : pubparam E) seed, (forall b, length (sha512 E b) = 64%nat) ->
  let g := rfc_hmac (sha512 E) (str "Pixel master key" ++ [pp_cs pp]) seed in
  let x := spec_scalar (sha512 E) g (info_of KeyInit) in
  master_key_gen seed pp =
    if (length seed <? 32)%nat then Err E_SEED_TOO_SHORT
    else if valid_cs (pp_cs pp) then
      Ok (g2_mul x (pp_g2 pp), g1_mul x (pp_h pp), bls_sign x (DOM_SEP_POP ++ g2_enc true (g2_mul x (pp_g2 pp))) [pp_cs pp],
          spec_next (sha512 E) g (info_of KeyInit))
    else Err E_CIPHERSUITE.
Proof.
  intros E pp seed HH g x. unfold master_key_gen. destruct (length seed <? 32)%nat; [reflexivity|].
  destruct (valid_cs (pp_cs pp)); [|reflexivity]. cbn [negb].
  rewrite prng_init_spec by exact HH.
  change (DOM_SEP_MASTER_KEY) with (str "Pixel master key"). fold g.
  rewrite (sample_then_update_spec (sha512 E) g KEY_INIT_INFO HH). reflexivity.
Qed.
Lemma sk_init_exact : forall (E : env) (pp : pubparam E) alpha g, (forall b, length (sha512 E b) = 64%nat) ->
  let r := spec_scalar (sha512 E) g (info_of SkInit) in
  sk_init pp alpha g =
    if valid_cs (pp_cs pp) then
      match pp_hlist pp with
      | [] => Panic P_INDEX
      | h0 :: hl => Ok (SecKey (pp_cs pp) 1 [SubKey 1 (g2_mul r (pp_g2 pp)) (g1_add (g1_mul r h0) alpha) (map (g1_mul r) (firstn (pp_depth pp) hl))]
                          (spec_next (sha512 E) g (info_of SkInit)))
      end
    else Err E_CIPHERSUITE.
Proof.
  intros E pp alpha g HH r. unfold sk_init. destruct (valid_cs (pp_cs pp)); [|reflexivity]. cbn [negb].
  change (DOM_SEP_SK_INIT ++ [0; 0; 0; 1]) with (info_of SkInit).
  rewrite (sample_then_update_spec (sha512 E) g (info_of SkInit) HH). cbn [bind]. unfold ssk_init.
  destruct (pp_hlist pp) as [|h0 hl]; [reflexivity|]. cbn [nth_res nth_error bind]. replace (pp_depth pp + 1)%nat with (S (pp_depth pp)) by lia. reflexivity.
Qed.
Lemma pk_init_exact : forall (E : env) (pp : pubparam E) k,
  pk_init pp k = if valid_cs (pp_cs pp) then Ok (PubKey (pp_cs pp) k) else Err E_CIPHERSUITE.
Proof. intros E pp k. unfold pk_init. destruct (valid_cs (pp_cs pp)); reflexivity. Qed.
Lemma key_gen_any_params : forall (E : env) (pp : pubparam E) seed, (forall b, length (sha512 E b) = 64%nat) ->
  ((length seed < 32)%nat -> key_gen seed pp = Err E_SEED_TOO_SHORT)
  /\ ((32 <= length seed)%nat -> valid_cs (pp_cs pp) = false -> key_gen seed pp = Err E_CIPHERSUITE)
  /\ ((32 <= length seed)%nat -> valid_cs (pp_cs pp) = true -> pp_hlist pp = [] -> key_gen seed pp = Panic P_INDEX)
  /\ ((32 <= length seed)%nat -> valid_cs (pp_cs pp) = true -> pp_hlist pp <> [] ->
      exists pk sk pop, key_gen seed pp = Ok (pk, sk, pop) /\ map (fun s => length (sk_hvec s)) (sec_ssk sk) = [Nat.min (pp_depth pp) (length (pp_hlist pp) - 1)]).
Proof.
  intros E pp seed HH. unfold key_gen. rewrite (master_key_gen_exact E pp seed HH).
  split; [intros Hl; replace (length seed <? 32)%nat with true by lia; reflexivity|].
  split; [intros Hl Hc; replace (length seed <? 32)%nat with false by lia; rewrite Hc; reflexivity|].
  split; intros Hl Hc Hh; replace (length seed <? 32)%nat with false by lia; rewrite Hc; cbn [bind]; rewrite pk_init_exact, Hc; cbn [bind];
    rewrite (sk_init_exact E pp _ _ HH), Hc.
  - rewrite Hh. reflexivity.
  - destruct (pp_hlist pp) as [|h0 hl]; [congruence|]. eexists _, _, _. split; [reflexivity|]. cbn [sec_ssk map sk_hvec]. rewrite map_length, firstn_length.
    cbn [length]. f_equal. lia.
Qed.
Lemma vectors_exact : forall (A : Type) (l a b : list A) (x : A) i,
  nth_res (a ++ x :: b) (length a) = Ok x /\ remove_at (length a) (a ++ x :: b) = Ok (a ++ b)
  /\ insert_at (length a) x (a ++ b) = Ok (a ++ x :: b)
  /\ ((length l <= i)%nat -> nth_res l i = Panic P_INDEX /\ remove_at i l = Panic P_INDEX)
  /\ ((length l < i)%nat -> insert_at i x l = Panic P_INDEX).
Proof.
  intros A l a b x i. split; [|split; [|split; [|split]]].
  - unfold nth_res. rewrite nth_error_app2, Nat.sub_diag by apply le_n. reflexivity.
  - unfold remove_at. rewrite app_length. cbn [length]. replace (length a <? length a + S (length b))%nat with true by (symmetry; apply Nat.ltb_lt; lia).
    rewrite firstn_app, firstn_all, Nat.sub_diag, app_nil_r. f_equal. f_equal. rewrite skipn_app, skipn_all2 by lia.
    replace (S (length a) - length a)%nat with 1%nat by lia. reflexivity.
  - unfold insert_at. rewrite app_length. replace (length a <=? length a + length b)%nat with true by (symmetry; apply Nat.leb_le; lia).
    rewrite firstn_app, firstn_all, Nat.sub_diag, app_nil_r, skipn_app, skipn_all, Nat.sub_diag. reflexivity.
  - intros H. unfold nth_res, remove_at. rewrite (proj2 (nth_error_None l i) H), (proj2 (Nat.ltb_ge i (length l)) H). auto.
  - intros H. unfold insert_at. rewrite (proj2 (Nat.leb_gt i (length l)) H). reflexivity.
Qed.

Lemma vec_to_time_long : forall m d v, (d < 64)%nat -> Forall (fun x => x = 1 \/ x = 2) v -> (d <= length v)%nat -> vec_to_time m v d = Err E_TIME_DEPTH.
Proof.
  intros m. induction d as [|d1 IH]; intros v Hd Hv Hl; [destruct v; reflexivity|]. destruct v as [|x v]; [cbn [length] in Hl; lia|]. cbn [vec_to_time]. inversion Hv as [|? ? Hx Hv']; subst. cbn [length] in Hl.
  assert (H63 : pow2 d1 <= pow2 63) by (apply pow2_le; lia). pose proof two64_half as H64. pose proof (pow2_pos d1) as Hp. assert (H1 : 1 < pow2 63) by reflexivity.
  unfold sub64 at 1. replace (1 <=? x) with true by (destruct Hx; lia). cbn [bind]. unfold shl64. replace (d1 <? 64)%nat with true by lia. cbn [bind].
  unfold sub64. replace (1 <=? pow2 d1) with true by lia. cbn [bind]. unfold mul64.
  assert (Hm : (x - 1) * (pow2 d1 - 1) <= pow2 d1 - 1) by (destruct Hx as [->| ->]; lia).
  replace ((x - 1) * (pow2 d1 - 1) <? two64) with true by lia. cbn [bind]. unfold add64 at 1. replace (1 + (x - 1) * (pow2 d1 - 1) <? two64) with true by lia. cbn [bind].
  rewrite (IH v ltac:(lia) Hv' ltac:(lia)). reflexivity.
Qed.
