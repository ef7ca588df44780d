(** Proofs about the strings that are hashed (HashTrace.v, SpecHash.v). *)
From Coq Require Import ZifyBool ZifyN ZifyNat.
From Verif Require Import Base Env SpecTime Time TimeFacts Hkdf Prng SpecPrng PrngFacts SubKey SecretKey Keys Sig IO Serdes Api SpecKey SpecUpdate SpecHyg SpecGrow
  SubKeyFacts KeyFacts UpdateFacts HistoryFacts GrowProps HygProps OpTrace SpecOps OpsProps OpCountProps HashTrace SpecHash.
Local Open Scope N_scope.
Local Arguments N.add : simpl never.
Local Arguments N.sub : simpl never.
Local Arguments pow2 : simpl never.
Local Opaque fr_modulus.

Section two.
Context (H H' : bytes -> bytes).
Definition agree (q : hlog) : Prop := forall b, In b q -> H' b = H b.
(** [x] (with [H]) has the result [r] and adds some strings; [x'] (with [H']) does the same if the two functions agree on
    them; given [P] the lengths of the strings are as in [Q], if [r] is a value. *)
Definition hq {A} (P : Prop) (x x' : st hlog A) (r : res A) (Q : A -> list nat -> Prop) : Prop :=
  exists q, (forall l, x l = (r, l ++ q)) /\ (agree q -> forall l, x' l = (r, l ++ q))
    /\ (P -> forall a, r = Ok a -> Q a (map (@length N) q)).
Lemma agree_app q q' : agree (q ++ q') <-> agree q /\ agree q'.
Proof.
  unfold agree. split; [intros Ha; split; intros b Hb; apply Ha, in_or_app; auto|]. intros [Ha Hb] b Hi. apply in_app_or in Hi as [Hi|Hi]; auto.
Qed.
Lemma hq_lift {A} (P : Prop) (r : res A) (Q : A -> list nat -> Prop) : (P -> forall a, r = Ok a -> Q a []) -> hq P (slift r) (slift r) r Q.
Proof. intros HQ. exists []. split; [intros l; rewrite app_nil_r; reflexivity|]. split; [intros _ l; rewrite app_nil_r; reflexivity|exact HQ]. Qed.
Lemma hq_ret {A} (P : Prop) (a : A) (Q : A -> list nat -> Prop) : (P -> Q a []) -> hq P (sret a) (sret a) (Ok a) Q.
Proof. intros HQ. apply (hq_lift P (Ok a)). intros Hp b Hb. injection Hb as <-. exact (HQ Hp). Qed.
Lemma hq_err {A} P e (Q : A -> list nat -> Prop) : hq P (slift (Err e)) (slift (Err e)) (Err e) Q.
Proof. apply hq_lift. discriminate. Qed.
Lemma hq_panic {A} P p (Q : A -> list nat -> Prop) : hq P (slift (Panic p)) (slift (Panic p)) (Panic p) Q.
Proof. apply hq_lift. discriminate. Qed.
Lemma hq_ask P x : hq P (ask H x) (ask H' x) (Ok (H x)) (fun a q => a = H x /\ q = [length x]).
Proof.
  exists [x]. split; [reflexivity|]. split; [|intros _ a Ha; injection Ha as <-; split; reflexivity].
  intros Ha l. unfold ask. rewrite (Ha x) by (left; reflexivity). reflexivity.
Qed.
Lemma hq_bind {A B} (P : Prop) (x x' : st hlog A) (r : res A) k k' (f : A -> res B) (R : A -> list nat -> Prop) (Q : B -> list nat -> Prop) :
  hq P x x' r R -> (forall a, r = Ok a -> hq (P /\ exists q1, R a q1) (k a) (k' a) (f a) (fun b q2 => forall q1, R a q1 -> Q b (q1 ++ q2))) ->
  hq P (sbind x k) (sbind x' k') (bind r f) Q.
Proof.
  intros (q1 & Hx & Hx' & HR) Hk. destruct r as [a|e|p]; cbn [bind].
  - destruct (Hk a eq_refl) as (q2 & H2 & H2' & HQ). exists (q1 ++ q2). split; [|split].
    + intros l. unfold sbind. rewrite Hx, H2, app_assoc. reflexivity.
    + intros Ha l. apply agree_app in Ha as [Ha1 Ha2]. unfold sbind. rewrite Hx', H2', app_assoc by assumption. reflexivity.
    + intros Hp b Hb. rewrite map_app. apply HQ; [|exact Hb|]; [split; [exact Hp|eexists]|]; apply HR; (exact Hp || reflexivity).
  - exists q1. split; [intros l; unfold sbind; rewrite Hx; reflexivity|]. split; [intros Ha l; unfold sbind; rewrite Hx' by exact Ha; reflexivity|discriminate].
  - exists q1. split; [intros l; unfold sbind; rewrite Hx; reflexivity|]. split; [intros Ha l; unfold sbind; rewrite Hx' by exact Ha; reflexivity|discriminate].
Qed.
Lemma hq_do {A B} (P : Prop) (r : res A) (k k' : A -> st hlog B) f (Q : B -> list nat -> Prop) :
  (forall a, r = Ok a -> hq P (k a) (k' a) (f a) Q) -> hq P (sbind (slift r) k) (sbind (slift r) k') (bind r f) Q.
Proof.
  intros Hk. destruct r as [a|e|p]; cbn [bind].
  - exact (Hk a eq_refl).
  - apply hq_err.
  - apply hq_panic.
Qed.
Lemma hq_weak {A} (P P' : Prop) (x x' : st hlog A) r (R Q : A -> list nat -> Prop) : hq P x x' r R -> (P' -> P) -> (P' -> forall a q, R a q -> Q a q) -> hq P' x x' r Q.
Proof. intros (q & H1 & H2 & H3) Hp HQ. exists q. split; [exact H1|]. split; [exact H2|]. intros Hp' a Ha. apply HQ, H3; auto. Qed.

Definition len64 : Prop := hash_len H.
Lemma hmac_hq key msg : hq (len64 /\ (length key <= 128)%nat) (hmac_q H key msg) (hmac_q H' key msg) (Ok (hmac H key msg))
  (fun a q => length a = 64%nat /\ q = hmac_lens (length msg)).
Proof.
  unfold hmac_q, hmac.
  assert (Hk : hq (len64 /\ (length key <= 128)%nat) (if (128 <? length key)%nat then ask H key else sret key) (if (128 <? length key)%nat then ask H' key else sret key)
     (Ok (if (128 <? length key)%nat then H key else key)) (fun a q => length a <= 128 /\ q = [])%nat).
  { destruct (Nat.ltb_spec 128 (length key)) as [Hl|Hl]; [|apply hq_ret; intros [_ Hp]; split; [exact Hp|reflexivity]].
    eapply hq_weak; [apply (hq_ask (len64 /\ (length key <= 128)%nat))|auto|]. intros [_ Hp]. lia. }
  apply (hq_bind _ _ _ _ _ _ (fun k0 => Ok (H (xor_bytes 0x5c (pad_to 128 k0) ++ H (xor_bytes 0x36 (pad_to 128 k0) ++ msg)))) _ _ Hk). intros k0 _.
  set (k := pad_to 128 k0).
  apply (hq_bind _ _ _ (Ok (H (xor_bytes 0x36 k ++ msg))) _ _ (fun i => Ok (H (xor_bytes 0x5c k ++ i))) (fun a q => a = H (xor_bytes 0x36 k ++ msg) /\ q = [length (xor_bytes 0x36 k ++ msg)])); [apply hq_ask|].
  intros i _. eapply hq_weak; [apply (hq_ask True)|auto|]. intros [[[Hh _] (q0 & Hk0 & _)] _] a q [-> ->] q1 [Hi ->] q2 [_ ->].
  assert (Hkl : forall c, length (xor_bytes c k) = 128%nat).
  { intros c. unfold xor_bytes, k, pad_to. rewrite map_length, app_length, repeat_length. lia. }
  split; [apply Hh|]. rewrite !app_length, !Hkl. subst i. rewrite Hh. reflexivity.
Qed.
Lemma blocks_hq prk info : forall n bn prev,
  hq (len64 /\ (length prk <= 128)%nat) (hkdf_blocks_q H prk info prev bn n) (hkdf_blocks_q H' prk info prev bn n) (Ok (hkdf_blocks H prk info prev bn n))
  (fun a q => length a = (64 * n)%nat /\ q = match n with O => [] | S n' => hmac_lens (length prev + length info + 1) ++ times n' (hmac_lens (64 + length info + 1)) end).
Proof.
  induction n as [|n IH]; intros bn prev; cbn [hkdf_blocks_q hkdf_blocks]; [apply hq_ret; intros _; split; reflexivity|].
  set (o := hmac H prk (prev ++ info ++ [as_u8 (N.of_nat bn) + 1])).
  apply (hq_bind _ _ _ (Ok o) _ _ (fun out => Ok (out ++ hkdf_blocks H prk info out (S bn) n)) _ _ (hmac_hq _ _)). intros out _.
  assert (Hb : forall P0 : Prop, (P0 -> len64 /\ (length prk <= 128)%nat) -> hq P0 (hkdf_blocks_q H prk info out (S bn) n) (hkdf_blocks_q H' prk info out (S bn) n) (Ok (hkdf_blocks H prk info out (S bn) n))
    (fun a q => length a = (64 * n)%nat /\ q = match n with O => [] | S n' => hmac_lens (length out + length info + 1) ++ times n' (hmac_lens (64 + length info + 1)) end)).
  { intros P0 HP. eapply hq_weak; [apply IH|exact HP|auto]. }
  apply (hq_bind _ _ _ _ _ _ (fun rest => Ok (out ++ rest)) _ _ (Hb _ (fun X => proj1 X))). intros rest _.
  apply hq_ret. intros [[_ (q0 & Ho & _)] _] q1 [Hr ->] q2 [_ ->]. rewrite app_length. split; [lia|].
  rewrite !app_length. cbn [length]. f_equal; [f_equal; lia|]. rewrite app_nil_r. destruct n; [reflexivity|]. rewrite Ho. reflexivity.
Qed.
Lemma expand_hq prk info n : (n <= 255)%nat ->
  hq (len64 /\ (length prk <= 128)%nat) (expand_or_panic_q H prk info (64 * S n)) (expand_or_panic_q H' prk info (64 * S n)) (expand_or_panic H prk info (64 * S n))
  (fun a q => length a = (64 * S n)%nat /\ q = hmac_lens (length info + 1) ++ times n (hmac_lens (64 + length info + 1))).
Proof.
  intros Hn. unfold expand_or_panic_q, expand_or_panic, hkdf_expand. destruct (64 * 255 <? 64 * S n)%nat; [apply hq_panic|].
  replace ((64 * S n + 63) / 64)%nat with (S n) by (apply (Nat.div_unique _ _ _ 63); lia).
  apply (hq_bind _ _ _ _ _ _ (fun out => Ok (firstn (64 * S n) out)) _ _ (blocks_hq prk info (S n) 0 [])). intros out _.
  apply hq_ret. intros [_ (q0 & Hl & _)] q1 [_ ->]. rewrite firstn_length, app_nil_r. cbn [length Nat.add]. split; [lia|reflexivity].
Qed.
Lemma expand128_hq prk info :
  hq (len64 /\ (length prk <= 128)%nat) (expand_or_panic_q H prk info 128) (expand_or_panic_q H' prk info 128) (expand_or_panic H prk info 128)
  (fun a q => length a = 128%nat /\ q = draw_lens (length info)).
Proof.
  eapply hq_weak; [apply (expand_hq prk info 1); lia|auto|]. intros _ a q [Ha ->]. split; [exact Ha|]. unfold draw_lens, times. cbn [repeat concat]. rewrite app_nil_r. reflexivity.
Qed.
Definition P64 (g : bytes) : Prop := len64 /\ length g = 64%nat.
Lemma stu_hq g info : hq (P64 g) (sample_then_update_q H g info) (sample_then_update_q H' g info) (sample_then_update H g info)
  (fun a q => length (snd a) = 64%nat /\ q = draw_lens (length info)).
Proof.
  unfold sample_then_update_q, sample_then_update. apply (hq_bind _ _ _ _ _ _ _ (fun a q => length a = 128%nat /\ q = draw_lens (length info))).
  { eapply hq_weak; [apply expand128_hq|intros [Hh Hg]; split; [exact Hh|lia]|auto]. }
  intros out _. apply hq_do. intros r _. apply hq_ret. intros [_ (q0 & Hl & _)] q1 [_ ->]. cbn [snd]. rewrite firstn_length, skipn_length, app_nil_r. split; [lia|reflexivity].
Qed.
Lemma sample_hq g info : hq (P64 g) (sample_q H g info) (sample_q H' g info) (sample H g info) (fun _ q => q = hmac_lens (length info + 1)).
Proof.
  unfold sample_q, sample. apply (hq_bind _ _ _ _ _ _ _ (fun a q => length a = 64%nat /\ q = hmac_lens (length info + 1))).
  { eapply hq_weak; [apply (expand_hq g info 0); lia|intros [Hh Hg]; split; [exact Hh|lia]|]. intros _ a q [Ha ->]. split; [exact Ha|]. apply app_nil_r. }
  intros out _. apply hq_lift. intros _ a _ q1 [_ ->]. apply app_nil_r.
Qed.
Lemma rerandomize_hq g seed info : hq (P64 g) (rerandomize_q H g seed info) (rerandomize_q H' g seed info) (rerandomize H g seed info)
  (fun a q => length a = 64%nat /\ q = draw_lens (length info) ++ hmac_lens (64 + length seed)).
Proof.
  unfold rerandomize_q, rerandomize. apply (hq_bind _ _ _ _ _ _ _ (fun a q => length a = 128%nat /\ q = draw_lens (length info))).
  { eapply hq_weak; [apply expand128_hq|intros [Hh Hg]; split; [exact Hh|lia]|auto]. }
  intros m _. apply (hq_bind _ _ _ (Ok (hmac H (firstn 64 (skipn 64 m)) (firstn 64 m ++ seed))) _ _ (fun k => Ok (firstn 64 k)) (fun a q => length a = 64%nat /\ q = hmac_lens (length (firstn 64 m ++ seed)))).
  { eapply hq_weak; [apply hmac_hq|intros [[Hh _] _]; split; [exact Hh|rewrite firstn_length; lia]|auto]. }
  intros k _. apply hq_ret. intros [[_ (q0 & Hm & _)] (q1 & Hk & _)] q2 [_ ->] q3 [_ ->]. rewrite app_length, !firstn_length, app_nil_r. split; [lia|].
  do 3 f_equal. lia.
Qed.
Lemma msg_hq msg cs P : hq P (hash_msg_q H msg cs) (hash_msg_q H' msg cs) (hash_msg_into_fr H msg cs) (fun _ q => q = verify_lens (length msg)).
Proof.
  unfold hash_msg_q, hash_msg_into_fr.
  apply (hq_bind _ _ _ (Ok (H (DOM_SEP_HASH_TO_MSG ++ [cs] ++ msg))) _ _ (fun h => os2ip_mod_p h) (fun a q => a = H (DOM_SEP_HASH_TO_MSG ++ [cs] ++ msg) /\ q = [length (DOM_SEP_HASH_TO_MSG ++ [cs] ++ msg)])); [apply hq_ask|].
  intros h _. apply hq_lift. intros _ a _ q1 [_ ->]. rewrite !app_length. reflexivity.
Qed.
End two.

(** * The calls *)
Section calls.
Context {E : env} (H' : bytes -> bytes).
Local Notation H := (sha512 E).
Local Notation hqE := (hq (sha512 E) H').
Local Notation P64E := (P64 (sha512 E)).
Lemma prng_init_hq seed salt : hqE (hash_len H /\ (length salt <= 128)%nat) (prng_init_q H seed salt) (prng_init_q H' seed salt) (Ok (prng_init H seed salt))
  (fun g q => length g = 64%nat /\ q = hmac_lens (length seed)).
Proof.
  unfold prng_init_q, prng_init, hkdf_extract.
  apply (hq_bind _ _ _ _ _ _ _ _ (fun k => Ok (firstn 64 k)) _ _ (hmac_hq _ _ _ _)). intros k _. apply hq_ret. intros [_ (q0 & Hk & _)] q1 [_ ->].
  rewrite firstn_length, app_nil_r. split; [lia|reflexivity].
Qed.
Lemma sk_init_hq (pp : pubparam E) alpha g : hqE (P64E g) (sk_init_q H pp alpha g) (sk_init_q H' pp alpha g) (sk_init pp alpha g)
  (fun _ q => q = draw_lens 25).
Proof.
  unfold sk_init_q, sk_init. destruct (negb _); [apply hq_err|]. eapply hq_bind; [apply stu_hq|]. intros [r g'] _. apply hq_do. intros ssk _.
  apply hq_ret. intros _ q1 [_ ->]. rewrite app_nil_r. reflexivity.
Qed.
Lemma key_gen_hq seed (pp : pubparam E) : hqE (hash_len H) (key_gen_q H seed pp) (key_gen_q H' seed pp) (key_gen seed pp)
  (fun _ q => q = keygen_lens (length seed)).
Proof.
  unfold key_gen_q, key_gen, master_key_gen_q, master_key_gen. destruct (length seed <? 32)%nat; [apply hq_err|]. destruct (negb (valid_cs (pp_cs pp))) eqn:Hcs; [apply hq_err|].
  apply (hq_bind _ _ _ _ _ _ _ _ _ (fun a q => length (snd a) = 64%nat /\ q = hmac_lens (length seed) ++ draw_lens 18)).
  { apply (hq_bind _ _ _ _ _ (Ok (prng_init H seed (DOM_SEP_MASTER_KEY ++ [pp_cs pp]))) _ _
      (fun g => let! (x, g') := sample_then_update H g KEY_INIT_INFO in Ok (g2_mul x (pp_g2 pp), g1_mul x (pp_h pp), proof_of_possession x (g2_mul x (pp_g2 pp)) (pp_cs pp), g'))
      (fun g q => length g = 64%nat /\ q = hmac_lens (length seed))).
    { eapply hq_weak; [apply prng_init_hq|intros Hh; split; [exact Hh|cbn; lia]|auto]. }
    intros g _. eapply hq_bind; [eapply hq_weak; [apply stu_hq|intros [Hh (q0 & Hg & _)]; split; [exact Hh|exact Hg]|intros _ a q X; exact X]|].
    intros [x g'] _. apply hq_ret. intros _ q1 [Hg' ->] q2 [_ ->]. cbn [snd] in *. split; [exact Hg'|]. rewrite app_nil_r. reflexivity. }
  intros [[[pk msk] pop] g] _. apply hq_do. intros pk' _. eapply hq_bind; [eapply hq_weak; [apply sk_init_hq|intros [Hh (q0 & Hg & _)]; split; [exact Hh|exact Hg]|intros _ a q X; exact X]|].
  intros sk _. apply hq_ret. intros _ q1 -> q2 [_ ->]. rewrite app_nil_r. unfold keygen_lens. rewrite <- app_assoc. reflexivity.
Qed.
Lemma rerand_hq m (pp : pubparam E) old i s g : hqE (P64E g) (rerand_new_q H m pp old i s g) (rerand_new_q H' m pp old i s g) (rerand_new m pp old i s g)
  (fun a q => length (snd a) = 64%nat /\ q = if (i =? 0)%nat then [] else draw_lens 23).
Proof.
  unfold rerand_new_q, rerand_new. destruct (i =? 0)%nat; [apply hq_ret; intros [_ Hg]; split; [exact Hg|reflexivity]|].
  eapply hq_bind; [apply stu_hq|]. intros [r g'] _. destruct (prng_eqb g' old); [apply hq_panic|]. apply hq_do. intros s' _.
  apply hq_ret. intros _ q1 [Hg' ->]. split; [exact Hg'|apply app_nil_r].
Qed.
Lemma times_app {A} (l : list A) a b : times a l ++ times b l = times (a + b) l.
Proof. unfold times. rewrite repeat_app, concat_app. reflexivity. Qed.
Lemma times_one {A} (l : list A) : times 1 l = l. Proof. unfold times. cbn [repeat concat]. apply app_nil_r. Qed.
Definition fresh_of (i n : nat) : nat := if (i =? 0)%nat then (n - 1)%nat else n.
Lemma loop_hq m (pp : pubparam E) old : forall gl i l g,
  hqE (P64E g) (update_loop_q H m pp old i gl l g) (update_loop_q H' m pp old i gl l g) (update_loop m pp old i gl l g)
  (fun a q => exists n, length (fst a) = (length l + n)%nat /\ q = times (fresh_of i n) (draw_lens 23)).
Proof.
  induction gl as [|tv gl IH]; intros i l g; cbn [update_loop_q update_loop].
  { apply hq_ret. intros _. exists 0%nat. cbn [fst]. split; [lia|]. unfold fresh_of. destruct (i =? 0)%nat; reflexivity. }
  apply hq_do. intros [] _.
  { apply hq_ret. intros _. exists 0%nat. cbn [fst]. split; [lia|]. unfold fresh_of. destruct (i =? 0)%nat; reflexivity. }
  apply hq_do. intros s0 _. apply hq_do. intros s1 _. eapply hq_bind; [apply rerand_hq|]. intros [s2 g'] _. apply hq_do. intros l' Hl'.
  apply insert_facts in Hl' as [Hl' _].
  eapply hq_weak; [apply IH|intros [[Hh _] (q0 & Hg & _)]; split; [exact Hh|exact Hg]|].
  intros _ a q (n & Hn & ->) q1 [_ ->]. exists (S n). split; [lia|]. unfold fresh_of. cbn [Nat.eqb]. destruct (i =? 0)%nat.
  - cbn [app]. f_equal. lia.
  - rewrite <- (times_one (draw_lens 23)) at 1. rewrite times_app. reflexivity.
Qed.
Lemma remove_len {A} (l l' : list A) : remove_at 0 l = Ok l' -> length l = S (length l').
Proof. unfold remove_at. destruct l as [|a l]; cbn; [discriminate|]. intros X. injection X as <-. reflexivity. Qed.
(** The number of sub keys that are re-randomized. *)
Lemma update_hq m (pp : pubparam E) tar seed sk : hqE (P64E (sec_prng sk)) (update_q H m pp tar seed sk) (update_q H' m pp tar seed sk) (run_mut (update m pp tar seed) sk)
  (fun a q => exists dt ssk, find_ancestor sk tar = Ok dt /\ drop_until dt (sec_ssk sk) = Ok ssk
     /\ q = reseed_lens (length seed) ++ times (length (sec_ssk a) - length ssk) (draw_lens 23)).
Proof.
  rewrite update_pure. unfold update_q. destruct (negb _); [apply hq_err|]. apply hq_do. intros p _. apply hq_do. intros mt _.
  destruct (_ || _); [apply hq_err|]. apply hq_do. intros dt Hdt. eapply hq_bind; [apply rerandomize_hq|]. intros g _. apply hq_do. intros ssk Hssk.
  change (length (DOM_SEP_SK_RERANDOMIZE_INFO ++ time_bytes (sec_time sk))) with 39%nat.
  destruct ssk as [|s ssk]; [apply hq_err|]. destruct (dt =? tar).
  { apply hq_ret. intros _ q1 [_ ->]. exists dt, (s :: ssk). split; [exact Hdt|]. split; [exact Hssk|]. cbn [sec_ssk]. rewrite Nat.sub_diag, app_nil_r. symmetry. apply app_nil_r. }
  apply hq_do. intros tv _. apply hq_do. intros gl _.
  eapply hq_bind; [eapply hq_weak; [apply loop_hq|intros [[Hh _] (q0 & Hg & _)]; split; [exact Hh|exact Hg]|intros _ a q X; exact X]|].
  intros [ssk' g'] _. apply hq_do. intros ssk2 Hrm. apply hq_do. intros s0 _. apply remove_len in Hrm.
  apply hq_ret. intros _ q1 (n & Hn & ->) q2 [_ ->]. exists dt, (s :: ssk). split; [exact Hdt|]. split; [exact Hssk|]. cbn [sec_ssk fst] in *. unfold fresh_of. cbn [Nat.eqb].
  rewrite app_nil_r. unfold reseed_lens. do 2 f_equal. lia.
Qed.
(** The same number in the trace of OpTrace.v. *)
Lemma loop_draws m (pp : pubparam E) old : forall gl i l g,
  em (update_loop_t m pp old i gl l g) (update_loop m pp old i gl l g)
  (fun a o => exists n, length (fst a) = (length l + n)%nat /\ count is_mul2 o = fresh_of i n).
Proof.
  induction gl as [|tv gl IH]; intros i l g; cbn [update_loop_t update_loop].
  { apply em_ret. exists 0%nat. cbn [fst]. split; [lia|]. unfold fresh_of. destruct (i =? 0)%nat; reflexivity. }
  apply em_do. intros [] _.
  { apply em_ret. exists 0%nat. cbn [fst]. split; [lia|]. unfold fresh_of. destruct (i =? 0)%nat; reflexivity. }
  apply em_do. intros s0 _. eapply em_bind; [apply delegate_em|]. intros s1 _. eapply em_bind; [apply rerand_em|]. intros [s2 g'] _. apply em_do. intros l' Hl'.
  apply insert_facts in Hl' as [Hl' _]. eapply em_weak; [apply IH|].
  intros a o (n & Hn & Hc) o1 Ho1 o2 (_ & cur & tv' & _ & _ & -> & _). exists (S n). split; [lia|]. rewrite !count_app, count_path, Hc by reflexivity. unfold fresh_of. cbn [Nat.eqb].
  destruct (i =? 0)%nat.
  - rewrite Ho1. cbn. lia.
  - destruct Ho1 as (tv2 & _ & ->). rewrite !count_app, count_path, count_times by reflexivity. cbn. lia.
Qed.
Lemma update_draws m (pp : pubparam E) tar seed sk : em (update_t m pp tar seed sk) (run_mut (update m pp tar seed) sk)
  (fun a o => exists dt ssk, find_ancestor sk tar = Ok dt /\ drop_until dt (sec_ssk sk) = Ok ssk /\ count is_mul2 o = (length (sec_ssk a) - length ssk)%nat).
Proof.
  rewrite update_pure. unfold update_t. destruct (negb _); [apply em_err|]. apply em_do. intros p _. apply em_do. intros mt _.
  destruct (_ || _); [apply em_err|]. apply em_do. intros dt Hdt. apply em_tick, em_do. intros g _. apply em_do. intros ssk Hssk.
  destruct ssk as [|s ssk]; [apply em_err|]. destruct (dt =? tar).
  { apply em_ret. exists dt, (s :: ssk). split; [exact Hdt|]. split; [exact Hssk|]. cbn [sec_ssk]. rewrite Nat.sub_diag. reflexivity. }
  apply em_do. intros tv _. apply em_do. intros gl _. eapply em_bind; [apply loop_draws|]. intros [ssk' g'] _.
  apply em_do. intros ssk2 Hrm. apply em_do. intros s0 _. apply remove_len in Hrm. apply em_ret. intros o1 (n & Hn & Hc).
  exists dt, (s :: ssk). split; [exact Hdt|]. split; [exact Hssk|]. rewrite app_nil_r, count_cons, Hc. cbn [sec_ssk fst is_mul2 Nat.add] in *. unfold fresh_of. cbn [Nat.eqb]. lia.
Qed.
Lemma sign_hq m sk t (pp : pubparam E) msg : hqE (P64E (sec_prng sk)) (sign_bytes_q H m sk t pp msg) (sign_bytes_q H' m sk t pp msg) (sign_bytes m sk t pp msg)
  (fun _ q => q = sign_lens (length msg)).
Proof.
  unfold sign_bytes_q, sign_bytes. destruct (negb _); [apply hq_err|]. destruct (negb _); [apply hq_err|]. destruct (negb _); [apply hq_panic|].
  eapply hq_bind; [apply sample_hq|]. intros r _. eapply hq_bind; [apply msg_hq|]. intros hm _. apply hq_lift. intros _ s _ q1 -> q2 ->.
  rewrite app_nil_r. unfold sign_lens. do 2 f_equal. rewrite !app_length. cbn [time_bytes length]. change (length DOM_SEP_SIG) with 28%nat. lia.
Qed.
Lemma verify_hq m (s : signature E) pk pp msg : hqE True (verify_q H m s pk pp msg) (verify_q H' m s pk pp msg) (verify m s pk pp msg) (fun _ _ => True).
Proof.
  unfold verify_q, verify. destruct (negb _); [apply hq_ret; auto|]. destruct (negb _); [apply hq_ret; auto|].
  eapply hq_bind; [apply msg_hq|]. intros hm _. apply hq_lift. auto.
Qed.
Lemma verify_agg_hq m (s : signature E) pks pp msg : hqE True (verify_aggregated_q H m s pks pp msg) (verify_aggregated_q H' m s pks pp msg) (verify_aggregated m s pks pp msg) (fun _ _ => True).
Proof.
  unfold verify_aggregated_q, verify_aggregated. destruct (negb _); [apply hq_ret; auto|]. destruct (negb _); [apply hq_ret; auto|].
  destruct pks as [|k pks]; [apply hq_panic|apply verify_hq].
Qed.
End calls.

(** * Calls on a key *)
Section keys.
Context {E : env} (H' : bytes -> bytes).
Local Notation H := (sha512 E).
Local Notation ag := (agree (sha512 E) H').
Definition k2 {A} (x x' : st (seckey E * hlog) A) (y : st (seckey E) A) : Prop :=
  forall sk, exists q, (forall l, x (sk, l) = (fst (y sk), (snd (y sk), l ++ q))) /\ (ag q -> forall l, x' (sk, l) = (fst (y sk), (snd (y sk), l ++ q))).
Lemma k2_nil {A} (x x' : st (seckey E * hlog) A) y : (forall sk l, x (sk, l) = (fst (y sk), (snd (y sk), l))) -> (forall sk l, x' (sk, l) = x (sk, l)) -> k2 x x' y.
Proof. intros Hx Hx' sk. exists []. split; [intros l|intros _ l; rewrite Hx']; rewrite Hx, app_nil_r; reflexivity. Qed.
Lemma k2_bind {A B} (x x' : st (seckey E * hlog) A) y (k k' : A -> st (seckey E * hlog) B) f : k2 x x' y -> (forall a, k2 (k a) (k' a) (f a)) -> k2 (sbind x k) (sbind x' k') (sbind y f).
Proof.
  intros Hx Hk sk. destruct (Hx sk) as (q & H1 & H1'). destruct (y sk) as [[a|e|p] sk1] eqn:Ey; cbn [fst snd] in H1, H1'.
  - destruct (Hk a sk1) as (q2 & H2 & H2'). exists (q ++ q2). unfold sbind. rewrite Ey. split.
    + intros l. rewrite H1, H2, app_assoc. reflexivity.
    + intros Ha l. apply agree_app in Ha as [Ha Ha2]. rewrite H1', H2', app_assoc by assumption. reflexivity.
  - exists q. unfold sbind. rewrite Ey. split; [intros l; rewrite H1; reflexivity|intros Ha l; rewrite H1' by exact Ha; reflexivity].
  - exists q. unfold sbind. rewrite Ey. split; [intros l; rewrite H1; reflexivity|intros Ha l; rewrite H1' by exact Ha; reflexivity].
Qed.
Lemma k2_key : k2 qkey qkey sget. Proof. apply k2_nil; reflexivity. Qed.
Lemma k2_slift {A} (r : res A) : k2 (slift r) (slift r) (slift r). Proof. apply k2_nil; reflexivity. Qed.
Lemma k2_ret {A} (a : A) : k2 (sret a) (sret a) (sret a). Proof. apply k2_nil; reflexivity. Qed.
Lemma k2_qlift {A} P (f f' : st hlog A) r Q : hq H H' P f f' r Q -> k2 (qlift f) (qlift f') (slift r).
Proof.
  intros (q & H1 & H2 & _) sk. exists q. unfold qlift, slift. cbn [fst snd]. split; [intros l; rewrite H1; reflexivity|intros Ha l; rewrite H2 by exact Ha; reflexivity].
Qed.
Lemma k2_update m (pp : pubparam E) t seed : k2 (sk_update_q H m pp t seed) (sk_update_q H' m pp t seed) (update m pp t seed).
Proof.
  intros sk. destruct (update_hq H' m pp t seed sk) as (q & H1 & H2 & _). exists q. unfold sk_update_q, sbind, qkey, qlift, qset. cbn [fst snd].
  pose proof (update_atomic m pp sk t seed) as Ha. unfold run_mut in H1, H2.
  destruct (update m pp t seed sk) as [[[]|e|p] sk']; cbn [fst snd]; (split; [intros l; rewrite H1|intros Hag l; rewrite H2 by exact Hag]); rewrite ?Ha; reflexivity.
Qed.
Lemma k2_step m (pp : pubparam E) o : k2 (step_q H m pp o) (step_q H' m pp o) (step m pp o).
Proof.
  destruct o as [t seed|t msg seed|t msg|t msg seed|c]; cbn [step_q step].
  - apply k2_bind; [apply k2_update|]. intros a. apply k2_ret.
  - apply k2_bind; [|intros s; apply k2_ret]. unfold sign_q, sign. apply k2_bind; [apply k2_key|]. intros sk. destruct (t <? sec_time sk); [apply k2_slift|].
    apply k2_bind; [destruct (sec_time sk <? t); [apply k2_update|apply k2_ret]|]. intros _. apply k2_bind; [apply k2_key|]. intros sk2. eapply k2_qlift, sign_hq.
  - apply k2_bind; [|intros s; apply k2_ret]. unfold sign_present_q, sign_present. apply k2_bind; [apply k2_key|]. intros sk. destruct (negb _); [apply k2_slift|].
    eapply k2_qlift, sign_hq.
  - apply k2_bind; [|intros s; apply k2_ret]. unfold sign_then_update_q, sign_then_update. apply k2_bind; [apply k2_key|]. intros sk. destruct (negb _); [apply k2_slift|].
    apply k2_bind; [eapply k2_qlift, sign_hq|]. intros s. apply k2_bind; [apply k2_slift|]. intros t1. apply k2_bind; [apply k2_update|]. intros _. apply k2_ret.
  - apply k2_nil; [|reflexivity]. intros sk l. cbn [fst snd]. unfold sbind, sret. destruct (reload c sk) as [[[]|e|p] sk']; reflexivity.
Qed.
Lemma run_k2 m (pp : pubparam E) : forall ops sk, exists q,
  (forall l, run_q H m pp ops (sk, l) = (fst (run m pp ops sk), (snd (run m pp ops sk), l ++ q)))
  /\ (ag q -> forall l, run_q H' m pp ops (sk, l) = (fst (run m pp ops sk), (snd (run m pp ops sk), l ++ q))).
Proof.
  induction ops as [|o ops IH]; intros sk; cbn [run_q run].
  - exists []. split; [intros l|intros _ l]; rewrite app_nil_r; reflexivity.
  - destruct (k2_step m pp o sk) as (q1 & H1 & H1'). destruct (step m pp o sk) as [r sk1] eqn:Es. cbn [fst snd] in H1, H1'. destruct (IH sk1) as (q2 & H2 & H2').
    destruct (run m pp ops sk1) as [rs sk2] eqn:Er. cbn [fst snd] in *. exists (q1 ++ q2). split.
    + intros l. rewrite H1, H2, app_assoc. reflexivity.
    + intros Ha l. apply agree_app in Ha as [Ha Ha2]. rewrite H1', H2', app_assoc by assumption. reflexivity.
Qed.
End keys.

(** * Lengths, for keys that exist *)
Section lens.
Context {E : env} (L : env_laws E) (m : mode) (pp : pubparam E) (x : N) (Hpp : pp_ok pp).
Local Notation H := (sha512 E).
Local Notation lens := (map (@length N)).
Lemma count_new d v v' : count is_mul2 (move_ops d v v') = (length (new_paths v v') - 1)%nat.
Proof.
  unfold move_ops. rewrite count_update by reflexivity. transitivity (length (tl (new_paths v v'))).
  - rewrite <- list_sum_ones. f_equal. apply map_ext. intros w. apply count_rerand2.
  - destruct (new_paths v v'); cbn [tl length]; lia.
Qed.
Lemma upd_lens t seed sk : good_sk pp x sk -> no_panic (fst (update m pp t seed sk)) = true ->
  (if later (pp_depth pp) (sec_time sk) t
   then exists sk' q, update m pp t seed sk = (Ok tt, sk') /\ good_sk pp x sk' /\ sec_time sk' = t
        /\ lens q = move_lens (length seed) (node (pp_depth pp) (sec_time sk)) (node (pp_depth pp) t)
        /\ forall l, sk_update_q H m pp t seed (sk, l) = (Ok tt, (sk', l ++ q))
   else update m pp t seed sk = (Err E_TIME_STAMP, sk) /\ forall l, sk_update_q H m pp t seed (sk, l) = (Err E_TIME_STAMP, (sk, l))).
Proof.
  intros Hg Hp. pose proof (upd_call L m pp x t seed sk Hpp Hg Hp) as Hc. destruct (k2_update H m pp t seed sk) as (q' & Hk & _).
  destruct (later (pp_depth pp) (sec_time sk) t).
  - destruct Hc as (sk' & Hu & Hg' & Ht & Htr). rewrite Hu in Hk. cbn [fst snd] in Hk. exists sk', q'. split; [exact Hu|]. split; [exact Hg'|]. split; [exact Ht|]. split; [|exact Hk].
    assert (Hrm : run_mut (update m pp t seed) sk = Ok sk') by (unfold run_mut; rewrite Hu; reflexivity).
    destruct (update_hq (E := E) H m pp t seed sk) as (q & H1 & _ & HQ). rewrite Hrm in H1, HQ.
    assert (q = q') as <-.
    { specialize (Hk []). unfold sk_update_q, sbind, qkey, qlift, qset in Hk. cbn [fst snd] in Hk. rewrite H1 in Hk. injection Hk as Hk. exact Hk. }
    destruct (HQ (conj (hash_len_env L) (proj1 (gsk_prng pp x sk Hg))) sk' eq_refl) as (dt & ssk & Hd & Hs & ->). unfold move_lens. do 2 f_equal.
    destruct (update_draws (E := E) H m pp t seed sk) as (o & Ho & HC). rewrite Hrm in Ho, HC. destruct (HC sk' eq_refl) as (dt2 & ssk2 & Hd2 & Hs2 & Hcnt).
    rewrite Hd in Hd2. injection Hd2 as <-. rewrite Hs in Hs2. injection Hs2 as <-. rewrite <- Hcnt.
    pose proof (update_ops_move L m pp x t seed sk [] sk' ([] ++ o) Hpp Hg (Ho [])) as Hmv. cbn [app] in Hmv. rewrite Hmv. apply count_new.
  - destruct Hc as [Hu Htr]. split; [exact Hu|]. rewrite Hu in Hk. cbn [fst snd] in Hk. intros l.
    assert (Hnil : sk_update_q H m pp t seed (sk, []) = (Err E_TIME_STAMP, (sk, []))).
    { assert (Hr : (t <=? sec_time sk) || (last_time (pp_depth pp) <? t) = true).
      { destruct ((t <=? sec_time sk) || (last_time (pp_depth pp) <? t)) eqn:Hr; [reflexivity|]. exfalso.
        pose proof (update_cases L m pp x sk t seed Hpp Hg) as Hc'. unfold in_range in Hc'.
        replace (sec_time sk <? t) with true in Hc' by lia. replace (t <=? last_time (pp_depth pp)) with true in Hc' by lia. cbn [andb] in Hc'.
        destruct Hc' as [(sk' & Hc' & _)|[Hc' _]]; rewrite Hu in Hc'; discriminate Hc'. }
      unfold sk_update_q, sbind, qkey, qlift, qset, update_q. cbn [fst snd]. rewrite (gsk_cs pp x sk Hg), N.eqb_refl. cbn [negb].
      pose proof (max_time_ok m (pp_depth pp) (ppo_depth pp Hpp)) as Hmax. unfold sbind, slift.
      destruct (shl64 m (pp_depth pp)) as [q|e|q]; [|discriminate Hmax..]. cbn [bind] in Hmax. rewrite Hmax, Hr. reflexivity. }
    rewrite Hk in Hnil. injection Hnil as Hnil. rewrite Hk, Hnil, app_nil_r. reflexivity.
Qed.
Lemma sign_lens_call msg sk : valid_cs (pp_cs pp) = true -> good_sk pp x sk ->
  exists s q, sign_bytes m sk (sec_time sk) pp msg = Ok s /\ lens q = sign_lens (length msg)
    /\ forall l, @qlift E _ (sign_bytes_q H m sk (sec_time sk) pp msg) (sk, l) = (Ok s, (sk, l ++ q)).
Proof.
  intros Hcs Hg. destruct (sign_bytes_ok L m pp x sk msg Hpp Hcs Hg) as (s & Hs & _). destruct (sign_hq (E := E) H m sk (sec_time sk) pp msg) as (q & H1 & _ & HQ).
  rewrite Hs in H1, HQ. exists s, q. split; [exact Hs|]. split; [exact (HQ (conj (hash_len_env L) (proj1 (gsk_prng pp x sk Hg))) s eq_refl)|].
  intros l. unfold qlift. cbn [fst snd]. rewrite H1. reflexivity.
Qed.
Lemma step_lens o sk l : valid_cs (pp_cs pp) = true -> good_sk pp x sk -> no_panic (fst (step m pp o sk)) = true ->
  lens (snd (snd (step_q H m pp o (sk, l)))) = lens l ++ call_lens (pp_depth pp) (sec_time sk) o.
Proof.
  intros Hcs Hg. set (d := pp_depth pp).
  destruct o as [t seed|t msg seed|t msg|t msg seed|c]; cbn [step_q step call_lens]; unfold sbind, sret.
  - intros Hp. assert (Hp' : no_panic (fst (update m pp t seed sk)) = true) by (destruct (update m pp t seed sk) as [[[]|e|p] sk']; exact Hp).
    pose proof (upd_lens t seed sk Hg Hp') as X. fold d in X. destruct (later d (sec_time sk) t).
    + destruct X as (sk' & q & Hu & _ & Ht & <- & X). rewrite X. cbn [snd]. apply map_app.
    + destruct X as [Hu X]. rewrite X, app_nil_r. reflexivity.
  - unfold sign_q, sign, sbind, qkey, sget, slift, sret. cbn [fst]. unfold later. destruct (N.eqb_spec (sec_time sk) t) as [<-|Hne].
    + rewrite N.ltb_irrefl. cbn [fst andb]. destruct (sign_lens_call msg sk Hcs Hg) as (s & q & Hs & <- & X). rewrite X. intros _. cbn [snd]. apply map_app.
    + destruct (N.ltb_spec t (sec_time sk)) as [Hlt|Hge].
      * replace (sec_time sk <? t) with false by lia. cbn [andb]. intros _. rewrite app_nil_r. reflexivity.
      * replace (sec_time sk <? t) with true by lia. intros Hp.
        assert (Hp' : no_panic (fst (update m pp t seed sk)) = true) by (destruct (update m pp t seed sk) as [[[]|e|p] sk']; [reflexivity|exact Hp..]).
        pose proof (upd_lens t seed sk Hg Hp') as X. fold d in X. unfold later in X. replace (sec_time sk <? t) with true in X by lia.
        cbn [andb] in X |- *. destruct (t <=? last_time d).
        -- destruct X as (sk' & q & Hu & Hg' & Ht & <- & X). rewrite X. cbn [fst].
           destruct (sign_lens_call msg sk' Hcs Hg') as (s & q2 & Hs & <- & X2). rewrite Ht in X2. rewrite X2. cbn [snd]. rewrite !map_app, app_assoc. reflexivity.
        -- destruct X as [Hu X]. rewrite X, app_nil_r. reflexivity.
  - unfold sign_present_q, sign_present, sbind, qkey, sget, slift. cbn [fst]. destruct (N.eqb_spec (sec_time sk) t) as [<-|Hne]; cbn [negb].
    + destruct (sign_lens_call msg sk Hcs Hg) as (s & q & Hs & <- & X). rewrite X. intros _. cbn [snd]. apply map_app.
    + intros _. rewrite app_nil_r. reflexivity.
  - unfold sign_then_update_q, sign_then_update, sbind, qkey, sget, slift, sret. cbn [fst]. destruct (N.eqb_spec (sec_time sk) t) as [<-|Hne]; cbn [negb].
    2:{ intros _. rewrite app_nil_r. reflexivity. }
    destruct (sign_lens_call msg sk Hcs Hg) as (s & q & Hs & <- & X). rewrite X, Hs.
    assert (Hr : sec_time sk + 1 < two64).
    { destruct (good_sk_head pp x sk Hg) as (v & _ & _ & Hn & _). apply node_at_range in Hn. unfold last_time in Hn.
      pose proof (ppo_depth pp Hpp). pose proof (pow2_lt64 (pp_depth pp) ltac:(lia)). lia. }
    rewrite (add64_ok m _ 1 Hr). intros Hp.
    assert (Hp' : no_panic (fst (update m pp (sec_time sk + 1) seed sk)) = true) by (destruct (update m pp (sec_time sk + 1) seed sk) as [[[]|e|p] sk']; [reflexivity|exact Hp..]).
    pose proof (upd_lens (sec_time sk + 1) seed sk Hg Hp') as Hu. fold d in Hu. destruct (later d (sec_time sk) (sec_time sk + 1)).
    + destruct Hu as (sk' & q2 & Hu & _ & Ht & <- & X2). rewrite X2. cbn [fst snd]. rewrite !map_app, app_assoc. reflexivity.
    + destruct Hu as [Hu X2]. rewrite X2. cbn [fst snd]. rewrite !map_app, !app_nil_r. reflexivity.
  - intros _. cbn [fst snd]. rewrite app_nil_r. destruct (reload c sk) as [[[]|e|p] sk']; reflexivity.
Qed.
Lemma run_lens : forall ops sk l, valid_cs (pp_cs pp) = true -> good_sk pp x sk -> forallb no_panic (fst (run m pp ops sk)) = true ->
  lens (snd (snd (run_q H m pp ops (sk, l)))) = lens l ++ history_lens (pp_depth pp) (sec_time sk) ops.
Proof.
  induction ops as [|o ops IH]; intros sk l Hcs Hg Hn; [cbn; rewrite app_nil_r; reflexivity|]. cbn [run_q run history_lens] in *.
  pose proof (step_good L m pp x o sk Hpp Hcs Hg) as [Hg' _]. pose proof (step_lens o sk l Hcs Hg) as H3. pose proof (step_ops L m pp x o sk [] Hpp Hcs Hg) as H4.
  destruct (k2_step (E := E) H m pp o sk) as (q & H1 & _). rewrite H1 in H3 |- *. cbn [fst snd] in H3 |- *.
  destruct (step m pp o sk) as [r sk1]. cbn [fst snd] in *.
  destruct (run m pp ops sk1) as [rs sk2] eqn:Er. cbn [fst forallb] in Hn. apply andb_prop in Hn as [Hn1 Hn2]. specialize (H3 Hn1). destruct (H4 Hn1) as [_ <-].
  specialize (IH sk1 (l ++ q) Hcs Hg'). rewrite Er in IH. specialize (IH Hn2).
  destruct (run_q H m pp ops (sk1, l ++ q)) as [rs' [sk3 l3]]. cbn [snd] in *. rewrite IH, H3, app_assoc. reflexivity.
Qed.
End lens.

(** * The properties *)
Lemma logged_results : forall (E : env) m (pp : pubparam E) seed s pk pks msg sk ops,
  fst (key_gen_q (sha512 E) seed pp []) = key_gen seed pp
  /\ fst (verify_q (sha512 E) m s pk pp msg []) = verify m s pk pp msg
  /\ fst (verify_aggregated_q (sha512 E) m s pks pp msg []) = verify_aggregated m s pks pp msg
  /\ fst (run_q (sha512 E) m pp ops (sk, [])) = fst (run m pp ops sk)
  /\ fst (snd (run_q (sha512 E) m pp ops (sk, []))) = snd (run m pp ops sk).
Proof.
  intros E m pp seed s pk pks msg sk ops. destruct (key_gen_hq (sha512 E) seed pp) as (q1 & H1 & _). destruct (verify_hq (sha512 E) m s pk pp msg) as (q2 & H2 & _).
  destruct (verify_agg_hq (sha512 E) m s pks pp msg) as (q3 & H3 & _). destruct (run_k2 (sha512 E) m pp ops sk) as (q4 & H4 & _). rewrite H1, H2, H3, H4. auto 10.
Qed.
Lemma log_complete : forall (E : env) (H' : bytes -> bytes) m (pp : pubparam E) ops sk rs sk' q,
  run_q (sha512 E) m pp ops (sk, []) = (rs, (sk', q)) -> (forall b, In b q -> H' b = sha512 E b) ->
  run_q H' m pp ops (sk, []) = (rs, (sk', q)).
Proof.
  intros E H' m pp ops sk rs sk' q Hr Ha. destruct (run_k2 H' m pp ops sk) as (q0 & H1 & H2). rewrite H1 in Hr. injection Hr as <- <- <-. exact (H2 Ha []).
Qed.
Lemma log_complete_keygen : forall (E : env) (H' : bytes -> bytes) (pp : pubparam E) seed r q,
  key_gen_q (sha512 E) seed pp [] = (r, q) -> (forall b, In b q -> H' b = sha512 E b) -> key_gen_q H' seed pp [] = (r, q).
Proof.
  intros E H' pp seed r q Hr Ha. destruct (key_gen_hq H' seed pp) as (q0 & H1 & H2 & _). rewrite H1 in Hr. injection Hr as <- <-. exact (H2 Ha []).
Qed.
Lemma keygen_log : forall (E : env) (L : env_laws E) (pp : pubparam E) seed k,
  key_gen seed pp = Ok k -> map (@length N) (snd (key_gen_q (sha512 E) seed pp [])) = keygen_lens (length seed).
Proof. intros E L pp seed k Hk. destruct (key_gen_hq (sha512 E) seed pp) as (q & H1 & _ & HQ). rewrite H1. exact (HQ (hash_len_env L) k Hk). Qed.
Lemma verify_log : forall (E : env) (H : bytes -> bytes) m (s : signature E) pk pks pp msg,
  let q := [DOM_SEP_HASH_TO_MSG ++ [pp_cs pp] ++ msg] in
  snd (verify_q H m s pk pp msg []) = (if valid_cs (pp_cs pp) && (sig_cs s =? pp_cs pp) then q else [])
  /\ (snd (verify_aggregated_q H m s pks pp msg []) = [] \/ snd (verify_aggregated_q H m s pks pp msg []) = q)
  /\ (fst (verify_q H m s pk pp msg []) = Ok true -> snd (verify_q H m s pk pp msg []) = q)
  /\ (fst (verify_aggregated_q H m s pks pp msg []) = Ok true -> snd (verify_aggregated_q H m s pks pp msg []) = q).
Proof.
  intros E H m s pk pks pp msg q.
  assert (Hv : forall pk, verify_q H m s pk pp msg [] = if valid_cs (pp_cs pp) && (sig_cs s =? pp_cs pp) then (bind (hash_msg_into_fr H msg (pp_cs pp)) (verify_fr m s pk pp), q) else (Ok false, [])).
  { intros k. unfold verify_q. destruct (valid_cs (pp_cs pp)); [|reflexivity]. destruct (sig_cs s =? pp_cs pp); [|reflexivity]. cbn [negb andb].
    unfold hash_msg_q, hash_msg_into_fr, sbind, ask, slift. cbn [app]. destruct (os2ip_mod_p _); reflexivity. }
  assert (Ha : verify_aggregated_q H m s pks pp msg [] = (Ok false, []) \/ verify_aggregated_q H m s pks pp msg [] = (Panic P_INDEX, []) \/ exists k, verify_aggregated_q H m s pks pp msg [] = verify_q H m s k pp msg []).
  { unfold verify_aggregated_q. destruct (negb _); [auto|]. destruct (negb _); [auto|]. destruct pks as [|k pks]; [auto|]. right. right. eexists. reflexivity. }
  rewrite Hv. split; [destruct (_ && _); reflexivity|]. split; [|split].
  - destruct Ha as [Ha|[Ha|[k Ha]]]; rewrite Ha; [left; reflexivity|left; reflexivity|]. rewrite Hv. destruct (_ && _); auto.
  - destruct (_ && _); [reflexivity|discriminate].
  - destruct Ha as [Ha|[Ha|[k Ha]]]; rewrite Ha; [discriminate|discriminate|]. rewrite Hv. destruct (_ && _); [reflexivity|discriminate].
Qed.
Lemma history_log : forall (E : env) (L : env_laws E) m (pp : pubparam E) pk sk ops,
  pp_ok pp -> reachable m pp pk sk -> forallb no_panic (fst (run m pp ops sk)) = true ->
  map (@length N) (snd (snd (run_q (sha512 E) m pp ops (sk, [])))) = history_lens (pp_depth pp) (sec_time sk) ops.
Proof.
  intros E L m pp pk sk ops Hpp Hr Hn. destruct (reachable_good L m pp pk sk Hpp Hr) as (x & _ & _ & Hg & Hcs).
  exact (run_lens L m pp x Hpp ops sk [] Hcs Hg Hn).
Qed.
Lemma same_lens d : forall ops ops' t, Forall2 same_size ops ops' -> history_lens d t ops = history_lens d t ops'.
Proof.
  intros ops ops' t Hf. revert t. induction Hf as [|a b ops ops' Hab _ IH]; intros t; [reflexivity|]. cbn [history_lens].
  assert (Hc : call_lens d t a = call_lens d t b /\ next_time d t a = next_time d t b); [|destruct Hc as [-> ->]; rewrite IH; reflexivity].
  destruct a, b; cbn [same_size] in Hab; try contradiction; cbn [call_lens next_time]; try (split; reflexivity).
  - destruct Hab as [-> ->]. split; reflexivity.
  - destruct Hab as (-> & -> & ->). split; reflexivity.
  - destruct Hab as [-> ->]. split; reflexivity.
  - destruct Hab as (-> & -> & ->). split; reflexivity.
Qed.
Lemma log_public : forall (E E' : env) (L : env_laws E) (L' : env_laws E') m m' (pp : pubparam E) (pp' : pubparam E') pk pk' sk sk' ops ops',
  pp_ok pp -> pp_ok pp' -> pp_depth pp = pp_depth pp' -> reachable m pp pk sk -> reachable m' pp' pk' sk' -> sec_time sk = sec_time sk' ->
  Forall2 same_size ops ops' -> forallb no_panic (fst (run m pp ops sk)) = true -> forallb no_panic (fst (run m' pp' ops' sk')) = true ->
  map (@length N) (snd (snd (run_q (sha512 E) m pp ops (sk, [])))) = map (@length N) (snd (snd (run_q (sha512 E') m' pp' ops' (sk', [])))).
Proof.
  intros E E' L L' m m' pp pp' pk pk' sk sk' ops ops' Hpp Hpp' Hd Hr Hr' Ht Ho Hn Hn'.
  rewrite (history_log E L m pp pk sk ops Hpp Hr Hn), (history_log E' L' m' pp' pk' sk' ops' Hpp' Hr' Hn'), <- Hd, <- Ht. apply same_lens, Ho.
Qed.
Lemma times_len {A} (l : list A) n : length (times n l) = (n * length l)%nat.
Proof. unfold times. induction n as [|n IH]; [reflexivity|]. cbn [repeat concat]. rewrite app_length, IH. lia. Qed.
Lemma move_len d t t' n : 1 <= t -> later d t t' = true -> (length (move_lens n (node d t) (node d t')) + 4 * rest entry2 d t' <= 4 * rest entry2 d t + 6)%nat.
Proof.
  intros H1 Hl. pose proof (move_total d t t' H1 Hl) as [_ Hm]. rewrite count_new in Hm. unfold move_lens. rewrite app_length, times_len. cbn [draw_lens hmac_lens reseed_lens length app]. lia.
Qed.
Lemma call_len d t o : 1 <= t <= last_time d ->
  (length (call_lens d t o) + 4 * rest entry2 d (next_time d t o) <= 4 * rest entry2 d t + (if signs o then 3 else 0) + 6)%nat.
Proof.
  intros Ht. assert (Hs : forall n, length (sign_lens n) = 3%nat) by reflexivity.
  destruct o as [t' s|t' msg s|t' msg|t' msg s|c]; cbn [call_lens next_time signs].
  - destruct (later d t t') eqn:Hl; [|cbn [length]; lia]. pose proof (move_len d t t' (length s) ltac:(lia) Hl). lia.
  - destruct (N.eqb_spec t t') as [<-|Hne].
    + unfold later. rewrite N.ltb_irrefl. cbn [andb]. rewrite Hs. lia.
    + destruct (later d t t') eqn:Hl; [|cbn [length]; lia]. pose proof (move_len d t t' (length s) ltac:(lia) Hl). rewrite app_length, Hs. lia.
  - destruct (t =? t'); [rewrite Hs|cbn [length]]; lia.
  - destruct (t =? t'); cbn [andb]; [|cbn [length]; lia]. rewrite app_length, Hs. destruct (later d t (t + 1)) eqn:Hl.
    + pose proof (move_len d t (t + 1) (length s) ltac:(lia) Hl). lia.
    + cbn [length]. lia.
  - cbn [length]. lia.
Qed.
Lemma history_len d : forall ops t, 1 <= t <= last_time d ->
  (length (history_lens d t ops) <= 4 * rest entry2 d t + 3 * length (filter signs ops) + 6 * length ops)%nat.
Proof.
  induction ops as [|o ops IH]; intros t Ht; [cbn; lia|]. cbn [history_lens filter length]. rewrite app_length. pose proof (call_len d t o Ht) as H1.
  specialize (IH (next_time d t o) (next_range d t o Ht)). destruct (signs o); cbn [length]; lia.
Qed.
Lemma log_size : forall (E : env) (L : env_laws E) m (pp : pubparam E) pk sk ops,
  pp_ok pp -> reachable m pp pk sk -> forallb no_panic (fst (run m pp ops sk)) = true ->
  (length (snd (snd (run_q (sha512 E) m pp ops (sk, [])))) + 4 <= 4 * 2 ^ (pp_depth pp - 1) + 3 * length (filter signs ops) + 6 * length ops)%nat.
Proof.
  intros E L m pp pk sk ops Hpp Hr Hn. rewrite <- (map_length (@length N)), (history_log E L m pp pk sk ops Hpp Hr Hn).
  destruct (reachable_good L m pp pk sk Hpp Hr) as (x & _ & _ & Hg & _).
  destruct (good_sk_head pp x sk Hg) as (v & _ & _ & Hv & _). apply node_at_range in Hv. pose proof (ppo_depth pp Hpp) as Hd.
  pose proof (history_len (pp_depth pp) ops (sec_time sk) Hv). pose proof (sum_entry2 (pp_depth pp) ltac:(lia)). pose proof (rest_all entry2 (pp_depth pp) (sec_time sk) eq_refl). lia.
Qed.
Lemma log_size_reached : forall (E : env) (L : env_laws E) m (pp : pubparam E) pk sk seeds,
  pp_ok pp -> reachable m pp pk sk -> sec_time sk = 1 -> 1 + N.of_nat (length seeds) = last_time (pp_depth pp) ->
  forallb no_panic (fst (run m pp (one_by_one 1 seeds) sk)) = true ->
  (length (snd (snd (run_q (sha512 E) m pp (one_by_one 1 seeds) (sk, [])))) + 4 = 4 * 2 ^ (pp_depth pp - 1) + 6 * length seeds)%nat.
Proof.
  intros E L m pp pk sk seeds Hpp Hr Ht Hs Hn. rewrite <- (map_length (@length N)), (history_log E L m pp pk sk _ Hpp Hr Hn), Ht. pose proof (ppo_depth pp Hpp) as Hd.
  destruct (steps_total (pp_depth pp) seeds 1 ltac:(lia) ltac:(lia)) as [_ H2]. rewrite Hs, rest_last, rest_1 in H2 by (try reflexivity; lia). pose proof (sum_entry2 (pp_depth pp) ltac:(lia)) as He.
  assert (Hl : forall seeds t, t + N.of_nat (length seeds) <= last_time (pp_depth pp) ->
    length (history_lens (pp_depth pp) t (one_by_one t seeds)) = (4 * count is_mul2 (history_ops (pp_depth pp) t (one_by_one t seeds)) + 6 * length seeds)%nat).
  { clear. induction seeds as [|s seeds IH]; intros t Hb; [reflexivity|]. cbn [length one_by_one history_lens history_ops call_lens call_ops next_time] in *.
    replace (later (pp_depth pp) t (t + 1)) with true by (unfold later; lia). rewrite app_length, count_app, count_new, IH by lia. unfold move_lens. rewrite app_length, times_len.
    cbn [draw_lens hmac_lens reseed_lens length app]. lia. }
  rewrite Hl by lia. lia.
Qed.
