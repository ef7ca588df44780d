(** Lemmas for C100: what the Debug texts disclose. *)
From Coq Require Import String.
From Verif Require Import Base Env Time Hkdf TimeFacts SpecTime Prng SpecPrng SubKey SecretKey Keys Sig IO Serdes
  Api SpecKey SpecUpdate SpecSer HistoryFacts SpecHyg Hygiene HygProps Debug SpecDbg.
From Coq Require Import ZifyBool ZifyNat ZifyN.
Local Open Scope N_scope.
Local Arguments N.add : simpl never.
Local Arguments N.mul : simpl never.
Local Arguments N.sub : simpl never.
Local Arguments N.div : simpl never.
Local Arguments N.modulo : simpl never.

Lemma unhex_hexd n : n < 16 -> unhex (hexd n) = n.
Proof. intros H. unfold unhex, hexd. destruct (N.ltb_spec n 10); [replace (48 + n <? 58) with true by lia|replace (87 + n <? 58) with false by lia]; lia. Qed.
Lemma hex_back b : b < 256 -> unhex (hexd (b / 16)) * 16 + unhex (hexd (b mod 16)) = b.
Proof.
  intros H. assert (Hm : b mod 16 < 16) by (apply N.mod_lt; discriminate). assert (Hd : b / 16 < 16) by (apply N.div_lt_upper_bound; [discriminate|exact H]).
  rewrite !unhex_hexd by assumption. rewrite (N.div_mod b 16) at 3 by discriminate. ring.
Qed.

(** Decimal numbers *)
Lemma dec_loop_back : forall f n acc, n < 10 ^ N.of_nat f ->
  fold_left (fun a c => a * 10 + (c - 48)) (dec_loop f n acc) 0 = fold_left (fun a c => a * 10 + (c - 48)) acc n.
Proof.
  induction f as [|f IH]; intros n acc H; cbn [dec_loop]; [change (10 ^ N.of_nat 0) with 1 in H; replace n with 0 by lia; reflexivity|].
  rewrite Nat2N.inj_succ, N.pow_succ_r' in H.
  destruct (N.ltb_spec n 10) as [Hn|Hn].
  - cbn [fold_left]. rewrite N.mod_small by exact Hn. f_equal. lia.
  - rewrite IH by (apply N.div_lt_upper_bound; [discriminate|exact H]). cbn [fold_left]. f_equal.
    replace (48 + n mod 10 - 48) with (n mod 10) by (rewrite N.add_comm, N.add_sub; reflexivity).
    rewrite (N.div_mod n 10) at 3 by discriminate. ring.
Qed.
Lemma dec_back n : n < 2 ^ 64 -> undec (dec n) = n.
Proof. intros H. unfold undec, dec. rewrite dec_loop_back; [reflexivity|]. eapply N.lt_trans; [exact H|reflexivity]. Qed.
Lemma dec_loop_digits : forall f n acc, Forall (fun c => c <> 10) acc -> Forall (fun c => c <> 10) (dec_loop f n acc).
Proof.
  induction f as [|f IH]; intros n acc H; cbn [dec_loop]; [exact H|].
  assert (H1 : Forall (fun c => c <> 10) (48 + n mod 10 :: acc)) by (constructor; [lia|exact H]).
  destruct (n <? 10); [exact H1|]. apply IH, H1.
Qed.
Lemma until_nl_app : forall a s, Forall (fun c => c <> 10) a -> until_nl (a ++ 10 :: s) = (a, s).
Proof.
  induction a as [|c a IH]; intros s H; [reflexivity|]. inversion H; subst. cbn [app until_nl]. replace (c =? 10) with false by lia.
  rewrite IH by assumption. reflexivity.
Qed.

(** The prng state *)
Lemma read_item b s : b < 256 -> read_prng ((str "0x" ++ hex2 b ++ str ", ") ++ s) = b :: read_prng s.
Proof. intros H. change (unhex (hexd (b / 16)) * 16 + unhex (hexd (b mod 16)) :: read_prng s = b :: read_prng s). rewrite hex_back by exact H. reflexivity. Qed.
Lemma read_items g : are_bytes g -> forall l s,
  read_prng (flat_map (fun k => str "0x" ++ hex2 (nth k g 0) ++ str ", ") l ++ s) = map (fun k => nth k g 0) l ++ read_prng s.
Proof.
  intros Hg. induction l as [|k l IH]; intros s; [reflexivity|]. cbn [flat_map map]. rewrite <- app_assoc. rewrite read_item.
  - rewrite IH. reflexivity.
  - destruct (nth_in_or_default k g 0) as [H|H]; [|rewrite H; reflexivity]. unfold are_bytes in Hg. rewrite Forall_forall in Hg. exact (Hg _ H).
Qed.
Lemma flat_map_map {A B C} (f : B -> list C) (h : A -> B) l : flat_map f (map h l) = flat_map (fun a => f (h a)) l.
Proof. induction l as [|a l IH]; [reflexivity|]. cbn [map flat_map]. rewrite IH. reflexivity. Qed.
Lemma read_lines g : are_bytes g -> forall l s,
  read_prng (flat_map (fun i => flat_map (fun j => str "0x" ++ hex2 (nth (i * 8 + j) g 0) ++ str ", ") (seq 0 8) ++ [nl]) l ++ s)
  = flat_map (fun i => map (fun j => nth (i * 8 + j) g 0) (seq 0 8)) l ++ read_prng s.
Proof.
  intros Hg. induction l as [|i l IH]; intros s; [reflexivity|]. cbn [flat_map]. rewrite <- !app_assoc.
  rewrite <- (flat_map_map (fun k => str "0x" ++ hex2 (nth k g 0) ++ str ", ") (fun j => (i * 8 + j)%nat)).
  rewrite (read_items g Hg), map_map. f_equal. cbn [app nl read_prng]. apply IH.
Qed.
Lemma nth_seq (g : list N) : map (fun k => nth k g 0) (seq 0 (length g)) = g.
Proof.
  induction g as [|b g IH]; [reflexivity|]. cbn [length seq map nth]. f_equal. rewrite <- IH at 2. rewrite <- seq_shift, map_map. reflexivity.
Qed.
Lemma read_prng_debug g s : length g = 64%nat -> are_bytes g -> read_prng (prng_debug g ++ s) = g ++ read_prng s.
Proof.
  intros Hl Hg. unfold prng_debug. rewrite (read_lines g Hg). f_equal.
  transitivity (map (fun k => nth k g 0) (seq 0 64)); [reflexivity|]. rewrite <- Hl. apply nth_seq.
Qed.
Lemma prng_text_read : forall g, length g = 64%nat -> are_bytes g -> read_prng (prng_debug g) = g.
Proof. intros g Hl Hg. rewrite <- (app_nil_r (prng_debug g)), read_prng_debug by assumption. cbn. apply app_nil_r. Qed.
Lemma blob_text_read : forall b, are_bytes b -> read_blob (blob_debug b) = b.
Proof.
  unfold blob_debug. induction b as [|e b IH]; intros H; [reflexivity|]. inversion H; subst. cbn [flat_map].
  rewrite <- !app_assoc. change (unhex (hexd (e / 16)) * 16 + unhex (hexd (e mod 16)) :: read_blob (flat_map (fun e => hex2 e ++ str ", ") b ++ [nl]) = e :: b).
  rewrite hex_back, IH by assumption. reflexivity.
Qed.

(** The text of a secret key *)
Lemma leak_text : forall (E : env) (p1 : G1 E -> bytes) (p2 : G2 E -> bytes) (sk : seckey E),
  sec_time sk < 2 ^ 64 -> length (sec_prng sk) = 64%nat -> are_bytes (sec_prng sk) ->
  leak (sk_debug p1 p2 sk) = (sec_time sk, sec_prng sk).
Proof.
  intros E p1 p2 sk Ht Hl Hg. unfold leak, sk_debug.
  set (rest := flat_map _ _ ++ bar ++ [nl]).
  change (skipn 38 (bar ++ [nl] ++ str "time:" ++ dec (sec_time sk) ++ [nl] ++ str "seed: " ++ [nl] ++ prng_debug (sec_prng sk) ++ [nl] ++ rest))
    with (dec (sec_time sk) ++ [nl] ++ str "seed: " ++ [nl] ++ prng_debug (sec_prng sk) ++ [nl] ++ rest).
  change ([nl] ++ str "seed: " ++ [nl] ++ prng_debug (sec_prng sk) ++ [nl] ++ rest)
    with (10 :: str "seed: " ++ [nl] ++ prng_debug (sec_prng sk) ++ [nl] ++ rest).
  rewrite until_nl_app by (apply dec_loop_digits; constructor). rewrite dec_back by exact Ht. f_equal.
  change (skipn 7 (str "seed: " ++ [nl] ++ prng_debug (sec_prng sk) ++ [nl] ++ rest)) with (prng_debug (sec_prng sk) ++ [nl] ++ rest).
  rewrite read_prng_debug by assumption.
  assert (Hr : exists r, rest = 61 :: r).
  { unfold rest. destruct (sec_ssk sk) as [|k ks]; [eexists; reflexivity|]. cbn [length seq combine flat_map]. eexists. reflexivity. }
  destruct Hr as [r Hr]. rewrite Hr. cbn. apply app_nil_r.
Qed.
Lemma reachable_leak {E} (L : env_laws E) m (pp : pubparam E) pk sk p1 p2 : pp_ok pp -> reachable m pp pk sk ->
  leak (sk_debug p1 p2 sk) = (sec_time sk, sec_prng sk).
Proof.
  intros Hpp Hr. destruct (reachable_good L m pp pk sk Hpp Hr) as (x & _ & _ & Hg & _).
  destruct (gsk_prng _ _ _ Hg) as [H1 H2]. apply leak_text; [|exact H1|exact H2].
  pose proof (gsk_time _ _ _ Hg) as [_ Ht]. pose proof (ppo_depth pp Hpp) as Hd. unfold last_time, pow2 in Ht.
  assert (Hp : 2 ^ N.of_nat (pp_depth pp) <= 2 ^ 64) by (apply N.pow_le_mono_r; lia).
  assert (Hz : 0 < 2 ^ 64) by reflexivity. revert Ht Hp Hz. generalize (2 ^ N.of_nat (pp_depth pp)), (2 ^ 64). intros; lia.
Qed.
(** Two signatures and the text *)
Lemma printed_forges : forall (E : env) (L : env_laws E) m m' (pp : pubparam E) pk sk t msg1 msg2 s1 s2 p1 p2,
  pp_ok pp -> reachable m pp pk sk ->
  sign_present m' t pp msg1 sk = (Ok s1, sk) -> sign_present m' t pp msg2 sk = (Ok s2, sk) ->
  msg_scalar pp msg1 <> msg_scalar pp msg2 ->
  let k msg := spec_scalar (sha512 E) (snd (leak (sk_debug p1 p2 sk))) (sign_info msg t) in
  exists v c,
    node_at (pp_depth pp) t v
    /\ forall m'' msg,
         verify m'' (combine_sigs pp t v s1 s2 (k msg1) (k msg2) (msg_scalar pp msg1) (msg_scalar pp msg2) c (msg_scalar pp msg)) pk pp msg = Ok true.
Proof.
  intros E L m m' pp pk sk t msg1 msg2 s1 s2 p1 p2 Hpp Hr Hs1 Hs2 Hne.
  rewrite (reachable_leak L m pp pk sk p1 p2 Hpp Hr). cbn [snd].
  destruct (nonces_forge E L m m' pp pk sk t msg1 msg2 s1 s2 Hpp Hr Hs1 Hs2 Hne) as (v & c & _ & Hn & H). exists v, c. auto.
Qed.
(** A later key, the seed of the update and the text *)
Lemma printed_recovers_past : forall (E : env) (L : env_laws E) m m' (pp : pubparam E) pk sk t seed sk' p1 p2,
  pp_ok pp -> reachable m pp pk sk -> update m' pp t seed sk = (Ok tt, sk') ->
  (2 <= length (new_times sk sk'))%nat ->
  let (t0, g0) := leak (sk_debug p1 p2 sk) in
  let rho := spec_scalar (sha512 E) (spec_rerandomize (sha512 E) g0 seed (str "Pixel secret key rerandomize expand" ++ time4 t0))
               (str "Pixel secret key update") in
  exists s0 s1 rest p u,
    sec_ssk sk' = s0 :: s1 :: rest
    /\ node_at (pp_depth pp) p u /\ sec_time sk <= p < t
    /\ forall m'' g msg, exists s,
         fst (sign_present m'' p pp msg (SecKey (pp_cs pp) p [recover pp p u s0 s1 rho] g)) = Ok s
         /\ verify m'' s pk pp msg = Ok true.
Proof.
  intros E L m m' pp pk sk t seed sk' p1 p2 Hpp Hr Hu Hlen. rewrite (reachable_leak L m pp pk sk p1 p2 Hpp Hr).
  pose proof (update_recovers_past E L m m' pp pk sk t seed sk' Hpp Hr Hu Hlen) as H.
  unfold spec_reseed in H. rewrite IOFacts.time_bytes_be4 in H. exact H.
Qed.
