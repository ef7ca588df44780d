(** Lemmas behind Properties_Coll.v. *)
From Coq Require Import String.
From Verif Require Import Base Env Time SpecTime TimeFacts Prng SpecPrng PrngFacts SubKey SecretKey Keys Sig IO Serdes Api
  SpecKey SpecUpdate SpecSig KeyFacts UpdateFacts HistoryFacts IOFacts KeyProps AlgProps PrngProps SpecRand RandProps SpecColl SpecPy.
Local Open Scope N_scope.

Section Coll.
Context (H : bytes -> bytes) (HH : forall b, length (H b) = 64%nat).

Lemma broken_incl qs qs' : incl qs qs' -> broken H qs -> broken H qs'.
Proof.
  intros Hi [(a & b & Ha & Hb & Hab)|(a & cs & Ha & Hab)]; [left; exists a, b|right; exists a, cs]; auto.
Qed.
Lemma app_inj_len {A} (a a' b b' : list A) : length a = length a' -> a ++ b = a' ++ b' -> a = a' /\ b = b'.
Proof.
  revert a'. induction a as [|x a IH]; intros [|y a'] Hl He; try discriminate Hl; [split; [reflexivity|exact He]|].
  cbn [app] in He. injection He as -> He. destruct (IH a' ltac:(cbn in Hl; lia) He) as [-> ->]. split; reflexivity.
Qed.
Lemma nth_map_seq {A} (f : nat -> A) n i d : (i < n)%nat -> nth i (map f (seq 0 n)) d = f i.
Proof.
  intros Hi. rewrite (nth_indep _ d (f 0%nat)) by (rewrite map_length, seq_length; lia). rewrite map_nth, seq_nth by lia. reflexivity.
Qed.
Lemma pad_eq (k k' : bytes) p : map (fun i => N.lxor (nth i k 0) p) (seq 0 128) = map (fun i => N.lxor (nth i k' 0) p) (seq 0 128) ->
  forall i, (i < 128)%nat -> nth i k 0 = nth i k' 0.
Proof.
  intros He i Hi. pose proof (f_equal (fun l => nth i l (N.lxor 0 p)) He) as Hn. cbn beta in Hn.
  rewrite !nth_map_seq in Hn by exact Hi.
  apply (f_equal (fun x => N.lxor x p)) in Hn. rewrite !N.lxor_assoc, N.lxor_nilpotent, !N.lxor_0_r in Hn. exact Hn.
Qed.
Lemma collide a b qs : In a qs -> In b qs -> H a = H b -> a = b \/ broken H qs.
Proof.
  intros Ha Hb He. destruct (list_eq_dec N.eq_dec a b) as [->|Hn]; [left; reflexivity|].
  right. left. exists a, b. auto.
Qed.
Lemma hmac_inj k t k' t' qs : (length k <= 128)%nat -> (length k' <= 128)%nat ->
  incl (hmac_queries H k t) qs -> incl (hmac_queries H k' t') qs ->
  rfc_hmac H k t = rfc_hmac H k' t' ->
  ((forall i, (i < 128)%nat -> nth i k 0 = nth i k' 0) /\ t = t') \/ broken H qs.
Proof.
  intros Hk Hk' Hi Hi' He. unfold rfc_hmac in He.
  rewrite (proj2 (Nat.leb_le _ _) Hk), (proj2 (Nat.leb_le _ _) Hk') in He.
  unfold hmac_queries in Hi, Hi'.
  eapply collide in He; [|apply Hi; right; left; reflexivity|apply Hi'; right; left; reflexivity].
  destruct He as [He|He]; [|right; exact He].
  apply app_inj_len in He as [_ He]; [|rewrite !map_length; reflexivity].
  eapply collide in He; [|apply Hi; left; reflexivity|apply Hi'; left; reflexivity].
  destruct He as [He|He]; [|right; exact He].
  apply app_inj_len in He as [Hp Ht]; [|rewrite !map_length; reflexivity].
  left. split; [apply pad_eq with (p := 0x36), Hp|exact Ht].
Qed.
Lemma nth_ext64 (k k' : bytes) : length k = 64%nat -> length k' = 64%nat -> (forall i, (i < 128)%nat -> nth i k 0 = nth i k' 0) -> k = k'.
Proof. intros Hk Hk' Hn. apply (nth_ext _ _ 0 0); [lia|]. intros i Hi. apply Hn. lia. Qed.
Lemma hmac_inj64 k t k' t' qs : length k = 64%nat -> length k' = 64%nat ->
  incl (hmac_queries H k t) qs -> incl (hmac_queries H k' t') qs ->
  rfc_hmac H k t = rfc_hmac H k' t' -> (k = k' /\ t = t') \/ broken H qs.
Proof.
  intros Hk Hk' Hi Hi' He. destruct (hmac_inj k t k' t' qs ltac:(lia) ltac:(lia) Hi Hi' He) as [[Hn Ht]|Hb]; [|right; exact Hb].
  left. split; [apply nth_ext64; auto|exact Ht].
Qed.
(** A 64-byte key that HMAC does not tell from the salt. *)
Lemma salt_key cs k : length k = 64%nat -> (forall i, (i < 128)%nat -> nth i (master_salt cs) 0 = nth i k 0) ->
  k = master_salt cs ++ repeat 0 47.
Proof.
  intros Hk Hn. apply (nth_ext _ _ 0 0); [rewrite Hk; reflexivity|]. intros i Hi. rewrite <- Hn by lia.
  destruct (Nat.lt_ge_cases i (length (master_salt cs))) as [Hl|Hl]; [rewrite app_nth1 by exact Hl; reflexivity|].
  rewrite app_nth2 by exact Hl. rewrite (nth_overflow (master_salt cs)) by exact Hl. symmetry. apply nth_repeat.
Qed.
Lemma hmac_start_step cs t k' t' qs : length k' = 64%nat ->
  incl (hmac_queries H (master_salt cs) t) qs -> incl (hmac_queries H k' t') qs ->
  (exists q, In q qs /\ k' = H q) ->
  rfc_hmac H (master_salt cs) t = rfc_hmac H k' t' -> broken H qs.
Proof.
  intros Hk' Hi Hi' (q & Hq & Hqk) He. assert (Hs : (length (master_salt cs) <= 128)%nat) by (cbn; lia).
  destruct (hmac_inj _ t k' t' qs Hs ltac:(lia) Hi Hi' He) as [[Hn Ht]|Hb]; [|exact Hb].
  right. exists q, cs. split; [exact Hq|]. rewrite <- Hqk. apply salt_key; auto.
Qed.

Lemma T1_inj g p g' p' qs : length g = 64%nat -> length g' = 64%nat -> short_time p -> short_time p' ->
  incl (draw_queries H g p) qs -> incl (draw_queries H g' p') qs ->
  drawn H g p = drawn H g' p' -> (g = g' /\ p = p') \/ broken H qs.
Proof.
  intros Hg Hg' Hp Hp' Hi Hi' He. destruct (hmac_inj64 _ _ _ _ qs Hg Hg' Hi Hi' He) as [[-> Ht]|Hb]; [|right; exact Hb].
  left. split; [reflexivity|]. apply (info_first_byte_free p p' 1); auto.
Qed.

Lemma steps_queries_app g l l' : steps_queries H g (l ++ l') = steps_queries H g l ++ steps_queries H (fold_left (after H) l g) l'.
Proof. revert g. induction l as [|s l IH]; intros g; [reflexivity|]. cbn [app steps_queries fold_left]. rewrite IH, app_assoc. reflexivity. Qed.
Lemma chain_snoc cs seed l s : chain H cs seed (l ++ [s]) = after H (chain H cs seed l) s.
Proof. unfold chain. rewrite fold_left_app. reflexivity. Qed.
Lemma chain_app cs seed l l' : chain H cs seed (l ++ l') = fold_left (after H) l' (chain H cs seed l).
Proof. unfold chain. rewrite fold_left_app. reflexivity. Qed.
Lemma queries_snoc cs seed l s : chain_queries H cs seed (l ++ [s]) = chain_queries H cs seed l ++ step_queries H (chain H cs seed l) s.
Proof. unfold chain_queries. rewrite steps_queries_app. cbn [steps_queries]. rewrite app_nil_r, app_assoc. reflexivity. Qed.
Lemma chain_len cs seed l : length (chain H cs seed l) = 64%nat.
Proof.
  destruct l as [|s l] using rev_ind; [apply HH|]. rewrite chain_snoc. destruct s; cbn [after]; apply HH.
Qed.
(** A chain state is the hash of one of its queries. *)
Lemma chain_hashed cs seed l : exists q, In q (chain_queries H cs seed l) /\ chain H cs seed l = H q.
Proof.
  destruct l as [|s l] using rev_ind.
  - eexists. split; [unfold chain_queries; apply in_or_app; left; right; left; reflexivity|]. reflexivity.
  - rewrite chain_snoc, queries_snoc. set (g := chain H cs seed l) in *. pose proof (chain_len cs seed l) as Hg. fold g in Hg. destruct s as [p|t sd]; cbn [after step_queries].
    + eexists. split; [apply in_or_app; right; unfold next_queries; apply in_or_app; right; right; left; reflexivity|].
      unfold spec_next, hkdf_T2, rfc_hmac. rewrite (proj2 (Nat.leb_le (length g) 128)) by lia. reflexivity.
    + eexists. split; [apply in_or_app; right; apply in_or_app; right; right; left; reflexivity|].
      unfold spec_rerandomize, rfc_hmac at 1. rewrite (proj2 (Nat.leb_le (length (hkdf_T2 H g _)) 128)) by (unfold hkdf_T2, rfc_hmac; rewrite HH; lia). reflexivity.
Qed.
Lemma T1_len g i : length (hkdf_T1 H g i) = 64%nat.
Proof. apply HH. Qed.
Lemma T2_len' g i : length (hkdf_T2 H g i) = 64%nat.
Proof. apply HH. Qed.
Lemma T2_hashed g i : length g = 64%nat -> exists q, In q (next_queries H g i) /\ hkdf_T2 H g i = H q.
Proof.
  intros Hg. eexists. split; [unfold next_queries; apply in_or_app; right; right; left; reflexivity|].
  unfold hkdf_T2, rfc_hmac. rewrite (proj2 (Nat.leb_le (length g) 128)) by lia. reflexivity.
Qed.

Lemma step_short s : step_used s -> match s with Draw p => short_time p | Reseed t _ => short_time (Rerandomize t) end.
Proof. destruct s as [p|t sd]; cbn; [intros [->|[->| ->]]; exact I|auto]. Qed.
Lemma used_not_rerandomize s t : step_used s -> s <> Draw (Rerandomize t).
Proof. intros Hs ->. destruct Hs as [Q|[Q|Q]]; discriminate Q. Qed.

Ltac sub_incl := first [assumption|eapply incl_tran; [|eassumption]]; auto using incl_refl, incl_appl, incl_appr.

Lemma after_inj g s g' s' qs : length g = 64%nat -> length g' = 64%nat -> step_used s -> step_used s' ->
  incl (step_queries H g s) qs -> incl (step_queries H g' s') qs ->
  after H g s = after H g' s' -> (g = g' /\ s = s') \/ broken H qs.
Proof.
  intros Hg Hg' Hu Hu' Hi Hi' He. pose proof (step_short s Hu) as Hp. pose proof (step_short s' Hu') as Hp'.
  assert (Hdd : forall g i g' i', hkdf_T1 H g i ++ i ++ [2] = hkdf_T1 H g' i' ++ i' ++ [2] -> hkdf_T1 H g i = hkdf_T1 H g' i' /\ i = i').
  { intros a i b i' Q. apply app_inj_len in Q as [Q1 Q2]; [|rewrite !T1_len; reflexivity]. apply app_inj_tail in Q2 as [-> _]. auto. }
  assert (Hdr : forall g p t sd g', length g = 64%nat -> length g' = 64%nat -> short_time p -> short_time (Rerandomize t) -> p <> Rerandomize t ->
     incl (next_queries H g (info_of p)) qs -> incl (step_queries H g' (Reseed t sd)) qs ->
     spec_next H g (info_of p) = spec_rerandomize H g' sd (info_of (Rerandomize t)) -> broken H qs).
  { clear - HH. intros g p t sd g' Hg Hg' Hp Ht Hne Hi Hi' He. cbn [step_queries] in Hi'. unfold next_queries in Hi, Hi'.
    destruct (hmac_inj64 _ _ _ _ qs Hg (T2_len' g' _) (fun x Q => Hi x (in_or_app _ _ _ (or_intror Q))) (fun x Q => Hi' x (in_or_app _ _ _ (or_intror Q))) He) as [[_ Q]|Q]; [|exact Q].
    apply app_inj_len in Q as [Q _]; [|rewrite !T1_len; reflexivity].
    destruct (T1_inj g p g' (Rerandomize t) qs Hg Hg' Hp Ht) as [[_ Hc]|Hb]; auto; [| |contradiction].
    - intros x Hx. apply Hi, in_or_app. left. exact Hx.
    - intros x Hx. apply Hi', in_or_app. left. apply in_or_app. left. exact Hx. }
  destruct s as [p|t sd], s' as [p'|t' sd']; cbn [after] in He.
  - cbn [step_queries] in Hi, Hi'. unfold next_queries in Hi, Hi'.
    destruct (hmac_inj64 _ _ _ _ qs Hg Hg' (fun x Q => Hi x (in_or_app _ _ _ (or_intror Q))) (fun x Q => Hi' x (in_or_app _ _ _ (or_intror Q))) He) as [[-> Q]|Q]; [|right; exact Q].
    apply Hdd in Q as [_ Q]. left. split; [reflexivity|]. f_equal. apply infos_distinct; auto.
  - right. apply (Hdr g p t' sd' g'); auto. intros Q. apply (used_not_rerandomize (Draw p) t' Hu). rewrite Q. reflexivity.
  - right. apply (Hdr g' p' t sd g); auto. intros Q. apply (used_not_rerandomize (Draw p') t Hu'). rewrite Q. reflexivity.
  - cbn [step_queries] in Hi, Hi'.
    destruct (hmac_inj64 _ _ _ _ qs (T2_len' g _) (T2_len' g' _) (fun x Q => Hi x (in_or_app _ _ _ (or_intror Q))) (fun x Q => Hi' x (in_or_app _ _ _ (or_intror Q))) He) as [[_ Q]|Q]; [|right; exact Q].
    apply app_inj_len in Q as [Q ->]; [|rewrite !T1_len; reflexivity].
    destruct (T1_inj g (Rerandomize t) g' (Rerandomize t') qs Hg Hg' Hp Hp') as [[-> Hc]|Hb]; auto.
    + intros x Hx. apply Hi, in_or_app. left. apply in_or_app. left. exact Hx.
    + intros x Hx. apply Hi', in_or_app. left. apply in_or_app. left. exact Hx.
    + left. injection Hc as ->. auto.
Qed.

Lemma chain_inj cs seed l cs' seed' l' : Forall step_used l -> Forall step_used l' ->
  chain H cs seed l = chain H cs' seed' l' ->
  (cs = cs' /\ seed = seed' /\ l = l') \/ broken H (chain_queries H cs seed l ++ chain_queries H cs' seed' l').
Proof.
  revert l'. induction l as [|s l IH] using rev_ind; intros l' Hu Hu' He.
  - destruct l' as [|s' l' _] using rev_ind.
    + unfold chain, start in He. cbn [fold_left] in He.
      eapply hmac_inj in He; [|cbn; lia|cbn; lia| |].
      * destruct He as [[Hn ->]|Hb]; [|right; exact Hb]. left. split; [|auto]. exact (Hn 16%nat ltac:(lia)).
      * apply incl_appl, incl_appl, incl_refl.
      * apply incl_appr, incl_appl, incl_refl.
    + right. rewrite chain_snoc in He. rewrite queries_snoc. pose proof (chain_hashed cs' seed' l') as (q & Hq & Hs).
      pose proof (chain_len cs' seed' l') as Hl. set (g := chain H cs' seed' l') in *. unfold chain, start in He. cbn [fold_left] in He.
      destruct s' as [p|t sd]; cbn [after step_queries] in *.
      * eapply hmac_start_step; [exact Hl| | | |exact He].
        -- apply incl_appl, incl_appl, incl_refl.
        -- apply incl_appr, incl_appr, incl_appr, incl_refl.
        -- exists q. split; [|exact Hs]. apply in_or_app. right. apply in_or_app. left. exact Hq.
      * destruct (T2_hashed g (info_of (Rerandomize t)) Hl) as (q' & Hq' & Hs').
        eapply hmac_start_step; [apply T2_len'| | | |exact He].
        -- apply incl_appl, incl_appl, incl_refl.
        -- apply incl_appr, incl_appr, incl_appr, incl_refl.
        -- exists q'. split; [|exact Hs']. apply in_or_app. right. apply in_or_app. right. apply in_or_app. left. exact Hq'.
  - apply Forall_app in Hu as [Hu Hs]. inversion Hs as [|? ? Hs1 _]; subst.
    destruct l' as [|s' l' _] using rev_ind.
    + right. rewrite chain_snoc in He. rewrite queries_snoc. pose proof (chain_hashed cs seed l) as (q & Hq & Hs2).
      pose proof (chain_len cs seed l) as Hl. set (g := chain H cs seed l) in *. unfold chain, start in He. cbn [fold_left] in He. symmetry in He.
      destruct s as [p|t sd]; cbn [after step_queries] in *.
      * eapply hmac_start_step; [exact Hl| | | |exact He].
        -- apply incl_appr, incl_appl, incl_refl.
        -- apply incl_appl, incl_appr, incl_appr, incl_refl.
        -- exists q. split; [|exact Hs2]. apply in_or_app. left. apply in_or_app. left. exact Hq.
      * destruct (T2_hashed g (info_of (Rerandomize t)) Hl) as (q' & Hq' & Hs').
        eapply hmac_start_step; [apply T2_len'| | | |exact He].
        -- apply incl_appr, incl_appl, incl_refl.
        -- apply incl_appl, incl_appr, incl_appr, incl_refl.
        -- exists q'. split; [|exact Hs']. apply in_or_app. left. apply in_or_app. right. apply in_or_app. left. exact Hq'.
    + apply Forall_app in Hu' as [Hu' Hs']. inversion Hs' as [|? ? Hs1' _]; subst.
      rewrite !chain_snoc in He. rewrite !queries_snoc.
      eapply after_inj in He; [|apply chain_len|apply chain_len|exact Hs1|exact Hs1'| |].
      * destruct He as [[Hg ->]|Hb]; [|right; exact Hb]. destruct (IH l' Hu Hu' Hg) as [(-> & -> & ->)|Hb]; [left; auto|].
        right. eapply broken_incl; [|exact Hb]. apply incl_app; [apply incl_appl, incl_appl, incl_refl|apply incl_appr, incl_appl, incl_refl].
      * apply incl_appl, incl_appr, incl_refl.
      * apply incl_appr, incl_appr, incl_refl.
Qed.
End Coll.

(** * Keys and histories *)
Lemma drawn_distinct : forall (H : bytes -> bytes), (forall b, length (H b) = 64%nat) ->
  forall cs seed l p cs' seed' l' p', Forall step_used l -> Forall step_used l' -> short_time p -> short_time p' ->
  drawn H (chain H cs seed l) p = drawn H (chain H cs' seed' l') p' ->
  (cs = cs' /\ seed = seed' /\ l = l' /\ p = p')
  \/ broken H (chain_queries H cs seed l ++ draw_queries H (chain H cs seed l) p
               ++ chain_queries H cs' seed' l' ++ draw_queries H (chain H cs' seed' l') p').
Proof.
  intros H HH cs seed l p cs' seed' l' p' Hu Hu' Hp Hp' He.
  eapply (T1_inj H HH) in He; [|apply (chain_len H HH)|apply (chain_len H HH)|exact Hp|exact Hp'| |].
  - destruct He as [[Hg ->]|Hb]; [|right; exact Hb].
    destruct (chain_inj H HH cs seed l cs' seed' l' Hu Hu' Hg) as [(-> & -> & ->)|Hb]; [left; auto|].
    right. eapply broken_incl; [|exact Hb]. apply incl_app; [apply incl_appl, incl_refl|apply incl_appr, incl_appr, incl_appl, incl_refl].
  - apply incl_appr, incl_appl, incl_refl.
  - apply incl_appr, incl_appr, incl_appr, incl_refl.
Qed.
Lemma chain_determines : forall (H : bytes -> bytes), (forall b, length (H b) = 64%nat) ->
  forall cs seed l cs' seed' l', Forall step_used l -> Forall step_used l' ->
  chain H cs seed l = chain H cs' seed' l' ->
  (cs = cs' /\ seed = seed' /\ l = l') \/ broken H (chain_queries H cs seed l ++ chain_queries H cs' seed' l').
Proof. intros H HH cs seed l cs' seed' l'. apply (chain_inj H HH). Qed.

Lemma reseed_after {E} (sk : seckey E) seed : spec_reseed sk seed = after (sha512 E) (sec_prng sk) (Reseed (sec_time sk) seed).
Proof. unfold spec_reseed, after. rewrite time_bytes_be4. reflexivity. Qed.
Lemma draws_after H n g : draws H n g = fold_left (after H) (repeat (Draw Update) n) g.
Proof.
  revert g. induction n as [|n IH]; intros g; [reflexivity|]. rewrite draws_S, IH. reflexivity.
Qed.
Lemma keygen_inv {E} (L : env_laws E) (pp : pubparam E) seed pk sk pop : pp_ok pp -> key_gen seed pp = Ok (pk, sk, pop) ->
  valid_cs (pp_cs pp) = true /\ sec_time sk = 1
  /\ sec_prng sk = chain (sha512 E) (pp_cs pp) seed [Draw KeyInit; Draw SkInit].
Proof.
  intros Hpp Hk. destruct (Nat.lt_ge_cases (length seed) 32) as [Hs|Hs].
  { rewrite key_gen_short in Hk by exact Hs. discriminate Hk. }
  destruct (valid_cs (pp_cs pp)) eqn:Hcs.
  2:{ rewrite key_gen_bad_cs in Hk by auto. discriminate Hk. }
  rewrite (key_gen_spec L pp seed Hs Hcs Hpp) in Hk. injection Hk as <- <- <-. cbn [sec_time sec_prng]. split; [reflexivity|]. split; reflexivity.
Qed.

Lemma filter_all {A} (f : A -> bool) l : Forall (fun a => f a = true) l -> filter f l = l.
Proof. induction 1 as [|a l Ha _ IH]; cbn; [reflexivity|]. rewrite Ha, IH. reflexivity. Qed.
Lemma filter_none {A} (f : A -> bool) l : Forall (fun a => f a = false) l -> filter f l = [].
Proof. induction 1 as [|a l Ha _ IH]; cbn; [reflexivity|]. rewrite Ha, IH. reflexivity. Qed.
Lemma existsb_in t l : In t l -> existsb (N.eqb t) l = true.
Proof. intros H. apply existsb_exists. exists t. split; [exact H|apply N.eqb_refl]. Qed.
Lemma existsb_out t l : ~ In t l -> existsb (N.eqb t) l = false.
Proof.
  intros H. destruct (existsb (N.eqb t) l) eqn:Ex; [|reflexivity]. apply existsb_exists in Ex as (u & Hu & He).
  apply N.eqb_eq in He. subst. contradiction.
Qed.

Lemma update_steps {E} (L : env_laws E) m m' (pp : pubparam E) pk sk t seed sk' : pp_ok pp -> reachable m pp pk sk ->
  update m' pp t seed sk = (Ok tt, sk') ->
  sec_prng sk' = fold_left (after (sha512 E))
    (Reseed (sec_time sk) seed :: repeat (Draw Update) (length (new_stamps sk sk') - 1)) (sec_prng sk).
Proof.
  intros Hpp Hr Hu. destruct (reachable_good L m pp pk sk Hpp Hr) as (x & _ & Hpk & Hg & _).
  assert (Ht : sec_time sk < t <= last_time (pp_depth pp)).
  { pose proof (update_cases L m' pp x sk t seed Hpp Hg) as H. destruct (in_range pp sk t) eqn:Er.
    - unfold in_range in Er. lia.
    - rewrite Hu in H. discriminate H. }
  cbn [fold_left]. rewrite <- reseed_after, <- draws_after.
  destruct (update_good L m' pp x sk t seed Hpp Hg Ht) as (pre & ta & va & r & post & [Hl Hn Hc Hpre Htil Hpost] & Hcase).
  assert (Hin : forall s, In s (honest_ssk pp x ta va r :: post) -> existsb (N.eqb (sk_t s)) (map sk_t (sec_ssk sk)) = true).
  { intros s Hs. apply existsb_in, in_map. rewrite Hl. apply in_or_app. right. exact Hs. }
  destruct Hcase as [[He Hu']|[Hlt (tv & gpre & gpost & Htv & Hgl & [gpre' Hgp] & Ht1 & _ & Hnodes & Hu')]].
  - rewrite Hu in Hu'. injection Hu' as ->. cbn [sec_prng].
    replace (length (new_stamps sk _)) with 0%nat; [reflexivity|]. symmetry. unfold new_stamps. cbn [sec_ssk].
    rewrite filter_none; [reflexivity|]. apply Forall_map, Forall_forall. intros s Hs. rewrite (Hin s Hs). reflexivity.
  - destruct (spec_fresh pp x r (sec_prng sk) true gpre (spec_reseed sk seed)) as [[ks g']|] eqn:Ef;
      rewrite Hu in Hu'; [|discriminate Hu']. injection Hu' as ->. cbn [sec_prng].
    replace (length (new_stamps sk _)) with (length gpre); [apply (spec_fresh_some _ _ _ _ _ _ _ _ Ef)|].
    unfold new_stamps. cbn [sec_ssk]. rewrite map_app, filter_app.
    rewrite (filter_none _ (map sk_t post)), app_nil_r.
    2:{ apply Forall_map, Forall_forall. intros s Hs. rewrite (Hin s) by (right; exact Hs). reflexivity. }
    destruct (spec_fresh_props L pp x r (sec_prng sk) gpre true (spec_reseed sk seed) ks g') as (Hm & _); auto using spec_reseed_ok.
    { eapply Forall_impl; [|exact Hnodes]. cbn. tauto. }
    rewrite Hm, filter_all; [rewrite map_length; reflexivity|].
    apply Forall_map. eapply Forall_impl; [|exact Hnodes]. cbn. intros u (Hun & w & Hw & Hv).
    assert (Hb : ta < tv_time u < ta + (pow2 (pp_depth pp - length va) - 1)).
    { apply (strictly_below_interval _ _ _ _ Hn). exists va, w. rewrite <- Hv. auto. }
    rewrite existsb_out; [reflexivity|]. rewrite Hl, map_app. cbn [map]. intros Hi. apply in_app_or in Hi as [Hi|[Hi|Hi]].
    + apply in_map_iff in Hi as (s & Hs & Hi). rewrite Forall_forall in Hpre. specialize (Hpre s Hi). cbn in Hpre. lia.
    + cbn [sk_t honest_ssk] in Hi. lia.
    + apply tiling_ge in Htil. rewrite Forall_forall in Htil. specialize (Htil _ Hi). cbn in Htil. lia.
Qed.

(** When exactly the assertion "prng not updated" fires. *)
Lemma fresh_false_none {E} (pp : pubparam E) x r old : forall l g i,
  (1 <= i <= length l)%nat -> draws (sha512 E) i g = old -> spec_fresh pp x r old false l g = None.
Proof.
  induction l as [|tv l IH]; intros g i Hi Hd; [cbn in Hi; lia|]. cbn [spec_fresh].
  destruct (prng_eqb (spec_next (sha512 E) g DOM_SEP_SK_UPDATE) old) eqn:Eq; [reflexivity|].
  destruct i as [|[|i]]; [lia| |].
  - rewrite draws_S in Hd. cbn in Hd. apply (proj2 (bytes_eqb_eq _ _)) in Hd. unfold prng_eqb in Eq. congruence.
  - rewrite (IH _ (S i)); [reflexivity|cbn [length] in Hi; lia|]. rewrite <- Hd. symmetry. apply draws_S.
Qed.
Lemma update_panic_iff : forall (E : env) (L : env_laws E) m m' (pp : pubparam E) pk sk t seed l,
  pp_ok pp -> reachable m pp pk sk -> sec_time sk < t <= last_time (pp_depth pp) -> tiling (pp_depth pp) t l ->
  (update m' pp t seed sk = (Panic P_PRNG, sk) <->
   exists i, (1 <= i < length (filter (fun u => negb (existsb (N.eqb u) (map sk_t (sec_ssk sk)))) l))%nat
             /\ draws (sha512 E) i (spec_reseed sk seed) = sec_prng sk).
Proof.
  intros E L m m' pp pk sk t seed l Hpp Hr Ht Htl.
  destruct (reachable_good L m pp pk sk Hpp Hr) as (x & _ & Hpk & Hg & _).
  destruct (update_good L m' pp x sk t seed Hpp Hg Ht) as (pre & ta & va & r & post & [Hl Hn Hc Hpre Htil Hpost] & Hcase).
  assert (Hin : forall s, In s (honest_ssk pp x ta va r :: post) -> existsb (N.eqb (sk_t s)) (map sk_t (sec_ssk sk)) = true).
  { intros s Hs. apply existsb_in, in_map. rewrite Hl. apply in_or_app. right. exact Hs. }
  destruct Hcase as [[He Hu']|[Hlt (tv & gpre & gpost & Htv & Hgl & [gpre' Hgp] & Ht1 & _ & Hnodes & Hu')]].
  - rewrite Hu'. split; [discriminate|]. intros (i & Hi & _).
    assert (l = map sk_t (honest_ssk pp x ta va r :: post)) as ->.
    { apply (tiling_fun (pp_depth pp) t); [exact Htl|]. subst ta. cbn [map]. apply (tile_cons _ _ va); assumption. }
    rewrite filter_none in Hi; [cbn in Hi; lia|].
    apply Forall_map, Forall_forall. intros s Hs. rewrite (Hin s Hs). reflexivity.
  - rewrite (tiling_fun _ _ _ _ Htl Ht1).
    rewrite filter_app, (filter_none _ (map sk_t post)), app_nil_r.
    2:{ apply Forall_map, Forall_forall. intros s Hs. rewrite (Hin s) by (right; exact Hs). reflexivity. }
    rewrite filter_all.
    2:{ apply Forall_map. eapply Forall_impl; [|exact Hnodes]. cbn. intros u (Hun & w & Hw & Hv).
      assert (Hb : ta < tv_time u < ta + (pow2 (pp_depth pp - length va) - 1)).
      { apply (strictly_below_interval _ _ _ _ Hn). exists va, w. rewrite <- Hv. auto. }
      rewrite existsb_out; [reflexivity|]. rewrite Hl, map_app. cbn [map]. intros Hi. apply in_app_or in Hi as [Hi|[Hi|Hi]].
      + apply in_map_iff in Hi as (s & Hs & Hi). rewrite Forall_forall in Hpre. specialize (Hpre s Hi). cbn in Hpre. lia.
      + cbn [sk_t honest_ssk] in Hi. lia.
      + apply tiling_ge in Htil. rewrite Forall_forall in Htil. specialize (Htil _ Hi). cbn in Htil. lia. }
    rewrite map_length, Hu'. split.
    + intros H. destruct (spec_fresh pp x r (sec_prng sk) true gpre (spec_reseed sk seed)) as [[ks g']|] eqn:Ef; [discriminate H|].
      apply spec_fresh_none in Ef. exact Ef.
    + intros (i & Hi & Hd). subst gpre. cbn [spec_fresh]. rewrite (fresh_false_none pp x r _ gpre' _ i); [reflexivity| |exact Hd].
      cbn [length] in Hi. lia.
Qed.

(** One operation: the prng moves exactly if the time does. *)
Definition step_list {E} (o : op) (sk sk1 : seckey E) : list pstep :=
  if sec_time sk1 =? sec_time sk then []
  else Reseed (sec_time sk) (op_seed o) :: repeat (Draw Update) (length (new_stamps sk sk1) - 1).
Lemma step_steps {E} (L : env_laws E) m (pp : pubparam E) pk sk o : pp_ok pp -> reachable m pp pk sk ->
  let sk1 := snd (step m pp o sk) in
  sec_prng sk1 = fold_left (after (sha512 E)) (step_list o sk sk1) (sec_prng sk).
Proof.
  intros Hpp Hr sk1. destruct (reachable_good L m pp pk sk Hpp Hr) as (x & _ & Hpk & Hg & Hcs).
  assert (Hsame : sk1 = sk -> sec_prng sk1 = fold_left (after (sha512 E)) (step_list o sk sk1) (sec_prng sk)).
  { intros ->. unfold step_list. rewrite N.eqb_refl. reflexivity. }
  assert (Hmove : forall t sk', update m pp t (op_seed o) sk = (Ok tt, sk') -> sk1 = sk' -> sec_time sk < sec_time sk1 ->
    sec_prng sk1 = fold_left (after (sha512 E)) (step_list o sk sk1) (sec_prng sk)).
  { intros t sk' Hu -> Hlt. unfold step_list. replace (sec_time sk' =? sec_time sk) with false by lia.
    apply (update_steps L m m pp pk sk t (op_seed o) sk' Hpp Hr Hu). }
  unfold sk1 in *. destruct o as [t seed|t msg seed|t msg|t msg seed|c]; cbn [step op_seed] in *; unfold sbind, sret in *.
  - pose proof (update_cases L m pp x sk t seed Hpp Hg) as Hc. destruct (in_range pp sk t) eqn:Er.
    + destruct Hc as [(sk' & Hu & _ & Ht)|[Hu _]]; rewrite Hu in *; cbn [snd] in *; [|apply Hsame; reflexivity].
      unfold in_range in Er. apply (Hmove t sk'); auto. lia.
    + rewrite Hc in *. apply Hsame. reflexivity.
  - pose proof (sign_cases L m pp x sk t msg seed Hpp Hcs Hg) as Hc. destruct (N.eqb_spec (sec_time sk) t) as [He|Hne].
    + destruct Hc as (s & Hs & _). rewrite Hs in *. apply Hsame. reflexivity.
    + destruct (in_range pp sk t) eqn:Er.
      * destruct Hc as [(s & sk' & Hs & _ & Hu & _ & Ht)|[Hu _]]; [rewrite Hs in *|rewrite Hu in *; apply Hsame; reflexivity]. cbn [snd] in *.
        unfold in_range in Er. apply (Hmove t sk'); auto. lia.
      * rewrite Hc in *. apply Hsame. reflexivity.
  - pose proof (sign_present_cases L m pp x sk t msg Hpp Hcs Hg) as Hc. destruct (sec_time sk =? t).
    + destruct Hc as (s & Hs & _). rewrite Hs in *. apply Hsame. reflexivity.
    + rewrite Hc in *. apply Hsame. reflexivity.
  - pose proof (sign_then_update_cases L m pp x sk t msg seed Hpp Hcs Hg) as Hc. destruct (N.eqb_spec (sec_time sk) t) as [He|Hne].
    + destruct (t <? last_time (pp_depth pp)).
      * destruct Hc as [(s & sk' & Hs & _ & _ & Hu & _ & Ht)|[Hu _]]; [rewrite Hs in *|rewrite Hu in *; apply Hsame; reflexivity]. cbn [snd] in *.
        apply (Hmove (t + 1) sk'); auto. lia.
      * rewrite Hc in *. apply Hsame. reflexivity.
    + rewrite Hc in *. apply Hsame. reflexivity.
  - destruct (reload_cases L c pp x sk Hpp Hcs Hg) as [Hc|(e & Hc)]; rewrite Hc in *; apply Hsame; reflexivity.
Qed.

Lemma last_time_32 d : (d <= 32)%nat -> last_time d < 2 ^ 32.
Proof. intros Hd. unfold last_time. pose proof (pow2_le d 32 Hd). change (pow2 32) with (2 ^ 32) in *. pose proof (pow2_pos d). lia. Qed.
Lemma reachable_short {E} (L : env_laws E) m (pp : pubparam E) pk sk : pp_ok pp -> (pp_depth pp <= 32)%nat -> reachable m pp pk sk -> sec_time sk < 2 ^ 32.
Proof.
  intros Hpp Hd Hr. destruct (reachable_good L m pp pk sk Hpp Hr) as (x & _ & _ & Hg & _).
  pose proof (gsk_time _ _ _ Hg). pose proof (last_time_32 _ Hd). lia.
Qed.
Lemma reseeds_app l l' : reseeds (l ++ l') = reseeds l ++ reseeds l'.
Proof. apply flat_map_app. Qed.

Lemma reseeds_draws p n : reseeds (repeat (Draw p) n) = [].
Proof. induction n as [|n IH]; [reflexivity|exact IH]. Qed.

Lemma run_steps {E} (L : env_laws E) m (pp : pubparam E) pk : pp_ok pp -> (pp_depth pp <= 32)%nat -> forall ops sk, reachable m pp pk sk ->
  sec_prng (snd (run m pp ops sk)) = fold_left (after (sha512 E)) (history_steps m pp ops sk) (sec_prng sk)
  /\ Forall step_used (history_steps m pp ops sk).
Proof.
  intros Hpp Hd. induction ops as [|o ops IH]; intros sk Hr; [split; [reflexivity|constructor]|].
  pose proof (reachable_run m pp pk sk [o] Hr) as Hr1. cbn [run] in Hr1 |- *. cbn [history_steps]. cbv zeta.
  pose proof (step_steps L m pp pk sk o Hpp Hr) as H1. cbv zeta in H1.
  destruct (step m pp o sk) as [r sk1]. cbn [snd] in *. destruct (IH sk1 Hr1) as (Hl & Hu).
  destruct (run m pp ops sk1) as [rs sk2]. cbn [snd] in *. fold (step_list o sk sk1). rewrite fold_left_app, <- H1. split; [exact Hl|].
  apply Forall_app. split; [|exact Hu]. unfold step_list. destruct (sec_time sk1 =? sec_time sk); [constructor|].
  constructor; [apply (reachable_short L m pp pk sk Hpp Hd Hr)|].
  apply Forall_forall. intros s Hs. apply repeat_spec in Hs as ->. cbn. auto.
Qed.
Lemma history_reseeds {E} m (pp : pubparam E) : forall ops sk, reseeds (history_steps m pp ops sk) = advances m pp ops sk.
Proof.
  induction ops as [|o ops IH]; intros sk; [reflexivity|]. cbn [history_steps advances]. cbv zeta. rewrite reseeds_app, IH. f_equal.
  destruct (_ =? _); [reflexivity|]. unfold reseeds. cbn [flat_map app]. f_equal. apply reseeds_draws.
Qed.

Lemma history_chain : forall (E : env) (L : env_laws E) m (pp : pubparam E) seed pk sk0 pop ops,
  pp_ok pp -> (pp_depth pp <= 32)%nat -> key_gen seed pp = Ok (pk, sk0, pop) ->
  sec_prng (snd (run m pp ops sk0)) = chain (sha512 E) (pp_cs pp) seed (key_steps m pp ops sk0)
  /\ Forall step_used (key_steps m pp ops sk0) /\ reseeds (key_steps m pp ops sk0) = advances m pp ops sk0.
Proof.
  intros E L m pp seed pk sk0 pop ops Hpp Hd Hk.
  assert (Hr : reachable m pp pk sk0) by (exists seed, sk0, pop, []; split; [exact Hk|reflexivity]).
  destruct (run_steps L m pp pk Hpp Hd ops sk0 Hr) as (Hl & Hs). unfold key_steps. split; [|split].
  - destruct (keygen_inv L pp seed pk sk0 pop Hpp Hk) as (_ & _ & Hp). rewrite Hl, Hp. reflexivity.
  - constructor; [left; reflexivity|]. constructor; [right; left; reflexivity|exact Hs].
  - apply (history_reseeds m pp ops sk0).
Qed.

Lemma state_commits : forall (E : env) (L : env_laws E) m m' (pp pp' : pubparam E) seed seed' pk pk' sk0 sk0' pop pop' ops ops',
  pp_ok pp -> pp_ok pp' -> (pp_depth pp <= 32)%nat -> (pp_depth pp' <= 32)%nat ->
  key_gen seed pp = Ok (pk, sk0, pop) -> key_gen seed' pp' = Ok (pk', sk0', pop') ->
  sec_prng (snd (run m pp ops sk0)) = sec_prng (snd (run m' pp' ops' sk0')) ->
  (pp_cs pp = pp_cs pp' /\ seed = seed' /\ advances m pp ops sk0 = advances m' pp' ops' sk0')
  \/ broken (sha512 E) (chain_queries (sha512 E) (pp_cs pp) seed (key_steps m pp ops sk0)
                         ++ chain_queries (sha512 E) (pp_cs pp') seed' (key_steps m' pp' ops' sk0')).
Proof.
  intros E L m m' pp pp' seed seed' pk pk' sk0 sk0' pop pop' ops ops' Hpp Hpp' Hd Hd' Hk Hk' He.
  destruct (history_chain E L m pp seed pk sk0 pop ops Hpp Hd Hk) as (Hc & Hu & Ha).
  destruct (history_chain E L m' pp' seed' pk' sk0' pop' ops' Hpp' Hd' Hk') as (Hc' & Hu' & Ha').
  rewrite Hc, Hc' in He. apply chain_inj in He; auto using (hash_len_env L).
  destruct He as [(H1 & H2 & H3)|Hb]; [left|right; exact Hb].
  rewrite <- Ha, <- Ha', H3. auto.
Qed.

(** The state returns within the draws of one update. *)
Lemma cycle_breaks {E} (L : env_laws E) m (pp : pubparam E) kseed pk sk0 pop ops seed i :
  pp_ok pp -> (pp_depth pp <= 32)%nat -> key_gen kseed pp = Ok (pk, sk0, pop) -> (i <= pp_depth pp - 1)%nat ->
  let sk := snd (run m pp ops sk0) in
  draws (sha512 E) i (spec_reseed sk seed) = sec_prng sk ->
  broken (sha512 E) (chain_queries (sha512 E) (pp_cs pp) kseed
    (key_steps m pp ops sk0 ++ Reseed (sec_time sk) seed :: repeat (Draw Update) (pp_depth pp - 1))).
Proof.
  intros Hpp Hd Hk Hi sk He.
  destruct (history_chain E L m pp kseed pk sk0 pop ops Hpp Hd Hk) as (Hc & Hu & Ha). fold sk in Hc.
  assert (Hr : reachable m pp pk sk) by (exists kseed, sk0, pop, ops; auto).
  rewrite draws_after, reseed_after in He.
  set (l0 := key_steps m pp ops sk0) in *. set (l1 := Reseed (sec_time sk) (seed) :: repeat (Draw Update) i).
  assert (Hch : chain (sha512 E) (pp_cs pp) kseed (l0 ++ l1) = chain (sha512 E) (pp_cs pp) kseed l0).
  { rewrite chain_app. rewrite <- Hc. exact He. }
  replace (repeat (Draw Update) (pp_depth pp - 1)) with (repeat (Draw Update) i ++ repeat (Draw Update) (pp_depth pp - 1 - i))
    by (rewrite <- repeat_app; f_equal; lia).
  rewrite app_comm_cons, app_assoc. fold l1.
  apply (chain_inj _ (hash_len_env L)) in Hch; [|apply Forall_app; split; [exact Hu|]|exact Hu].
  - destruct Hch as [(_ & _ & Hl)|Hb].
    + apply (f_equal (@length _)) in Hl. rewrite app_length in Hl. unfold l1 in Hl. cbn [length] in Hl. lia.
    + eapply broken_incl; [|exact Hb]. unfold chain_queries. rewrite !steps_queries_app.
      intros q Hq. rewrite !in_app_iff in Hq. rewrite !in_app_iff. tauto.
  - constructor; [apply (reachable_short L m pp pk sk Hpp Hd Hr)|].
    apply Forall_forall. intros s Hin. apply repeat_spec in Hin as ->. cbn. auto.
Qed.

Lemma panic_breaks : forall (E : env) (L : env_laws E) m m' (pp : pubparam E) seed pk sk0 pop ops o p,
  pp_ok pp -> (pp_depth pp <= 32)%nat -> key_gen seed pp = Ok (pk, sk0, pop) ->
  let sk := snd (run m pp ops sk0) in
  fst (step m' pp o sk) = Panic p ->
  broken (sha512 E) (chain_queries (sha512 E) (pp_cs pp) seed
    (key_steps m pp ops sk0 ++ Reseed (sec_time sk) (op_seed o) :: repeat (Draw Update) (pp_depth pp - 1))).
Proof.
  intros E L m m' pp seed pk sk0 pop ops o p Hpp Hd Hk sk Hp.
  assert (Hr : reachable m pp pk sk) by (exists seed, sk0, pop, ops; auto).
  destruct (reachable_good L m pp pk sk Hpp Hr) as (x & _ & Hpk & Hg & Hcs).
  assert (Hn : ~ no_repeat (pp_depth pp) sk (op_seed o)).
  { destruct o as [t sd|t msg sd|t msg|t msg sd|c]; cbn [step op_seed] in *; unfold sbind, sret in *.
    - pose proof (update_cases L m' pp x sk t sd Hpp Hg) as Hc. destruct (in_range pp sk t).
      + destruct Hc as [(sk' & Hc & _)|[_ Hc]]; [rewrite Hc in Hp; discriminate Hp|exact Hc].
      + rewrite Hc in Hp. discriminate Hp.
    - pose proof (sign_cases L m' pp x sk t msg sd Hpp Hcs Hg) as Hc. destruct (sec_time sk =? t).
      + destruct Hc as (s & Hc & _). rewrite Hc in Hp. discriminate Hp.
      + destruct (in_range pp sk t).
        * destruct Hc as [(s & sk' & Hc & _)|[_ Hc]]; [rewrite Hc in Hp; discriminate Hp|exact Hc].
        * rewrite Hc in Hp. discriminate Hp.
    - pose proof (sign_present_cases L m' pp x sk t msg Hpp Hcs Hg) as Hc. destruct (sec_time sk =? t).
      + destruct Hc as (s & Hc & _). rewrite Hc in Hp. discriminate Hp.
      + rewrite Hc in Hp. discriminate Hp.
    - pose proof (sign_then_update_cases L m' pp x sk t msg sd Hpp Hcs Hg) as Hc. destruct (sec_time sk =? t).
      + destruct (t <? last_time (pp_depth pp)).
        * destruct Hc as [(s & sk' & Hc & _)|[_ Hc]]; [rewrite Hc in Hp; discriminate Hp|exact Hc].
        * rewrite Hc in Hp. discriminate Hp.
      + rewrite Hc in Hp. discriminate Hp.
    - destruct (reload_cases L c pp x sk Hpp Hcs Hg) as [Hc|(e & Hc)]; rewrite Hc in Hp; discriminate Hp. }
  apply not_no_repeat in Hn as (i & Hi & He).
  apply (cycle_breaks L m pp seed pk sk0 pop ops (op_seed o) i Hpp Hd Hk); [lia|exact He].
Qed.

Lemma signing_strings : forall (E : env) (L : env_laws E) m m' (pp pp' : pubparam E) seed seed' pk pk' sk0 sk0' pop pop' ops ops' msg msg',
  pp_ok pp -> pp_ok pp' -> (pp_depth pp <= 32)%nat -> (pp_depth pp' <= 32)%nat ->
  key_gen seed pp = Ok (pk, sk0, pop) -> key_gen seed' pp' = Ok (pk', sk0', pop') ->
  let sk := snd (run m pp ops sk0) in let sk' := snd (run m' pp' ops' sk0') in
  let p := Signing msg (sec_time sk) in let p' := Signing msg' (sec_time sk') in
  drawn (sha512 E) (sec_prng sk) p = drawn (sha512 E) (sec_prng sk') p' ->
  (pp_cs pp = pp_cs pp' /\ seed = seed' /\ advances m pp ops sk0 = advances m' pp' ops' sk0'
   /\ sec_time sk = sec_time sk' /\ msg = msg')
  \/ broken (sha512 E)
       (chain_queries (sha512 E) (pp_cs pp) seed (key_steps m pp ops sk0) ++ draw_queries (sha512 E) (sec_prng sk) p
        ++ chain_queries (sha512 E) (pp_cs pp') seed' (key_steps m' pp' ops' sk0') ++ draw_queries (sha512 E) (sec_prng sk') p').
Proof.
  intros E L m m' pp pp' seed seed' pk pk' sk0 sk0' pop pop' ops ops' msg msg' Hpp Hpp' Hd Hd' Hk Hk' sk sk' p p' He.
  destruct (history_chain E L m pp seed pk sk0 pop ops Hpp Hd Hk) as (Hc & Hu & Ha).
  destruct (history_chain E L m' pp' seed' pk' sk0' pop' ops' Hpp' Hd' Hk') as (Hc' & Hu' & Ha').
  fold sk in Hc. fold sk' in Hc'. rewrite Hc, Hc' in He |- *.
  apply (drawn_distinct _ (hash_len_env L)) in He; auto.
  - destruct He as [(H1 & H2 & H3 & H4)|Hb]; [left|right; exact Hb].
    injection H4 as H4 H5. rewrite <- Ha, <- Ha', H3. auto.
  - apply (reachable_short L m pp pk sk Hpp Hd). exists seed, sk0, pop, ops. auto.
  - apply (reachable_short L m' pp' pk' sk' Hpp' Hd'). exists seed', sk0', pop', ops'. auto.
Qed.

(** * Histories *)
Definition reached {E} (m : mode) (pp : pubparam E) kseed (l : list op) (pk : pubkey E) (sk : seckey E) : Prop :=
  exists sk0 pop, key_gen kseed pp = Ok (pk, sk0, pop) /\ snd (run m pp l sk0) = sk.
Lemma reached_reachable {E} m (pp : pubparam E) kseed l pk sk : reached m pp kseed l pk sk -> reachable m pp pk sk.
Proof. intros (sk0 & pop & Hk & Hl). exists kseed, sk0, pop, l. auto. Qed.
Lemma reachable_reached {E} m (pp : pubparam E) pk sk : reachable m pp pk sk -> exists kseed l, reached m pp kseed l pk sk.
Proof. intros (kseed & sk0 & pop & l & H). exists kseed, l, sk0, pop. exact H. Qed.
Lemma reached_keygen {E} m (pp : pubparam E) kseed pk sk pop : key_gen kseed pp = Ok (pk, sk, pop) -> reached m pp kseed [] pk sk.
Proof. intros H. exists sk, pop. auto. Qed.
Lemma reached_step {E} m (pp : pubparam E) kseed l pk sk o : reached m pp kseed l pk sk ->
  reached m pp kseed (l ++ [o]) pk (snd (step m pp o sk)).
Proof.
  intros (sk0 & pop & Hk & Hl). exists sk0, pop. split; [exact Hk|]. rewrite run_app, Hl. cbn [run].
  destruct (step m pp o sk) as [r sk1]. reflexivity.
Qed.
Lemma reached_panic {E} (L : env_laws E) m m' (pp : pubparam E) kseed l pk sk o p : pp_ok pp -> (pp_depth pp <= 32)%nat ->
  reached m pp kseed l pk sk -> fst (step m' pp o sk) = Panic p -> breaks_at m pp kseed l (op_seed o).
Proof.
  intros Hpp Hd (sk0 & pop & Hk & Hl) Hp. exists pk, sk0, pop. split; [exact Hk|]. subst sk.
  apply (panic_breaks E L m m' pp kseed pk sk0 pop l o p); assumption.
Qed.
Lemma reached_update {E} m (pp : pubparam E) kseed l pk sk t seed sk' : reached m pp kseed l pk sk ->
  update m pp t seed sk = (Ok tt, sk') -> reached m pp kseed (l ++ [OpUpdate t seed]) pk sk'.
Proof.
  intros Hr Hu. pose proof (reached_step m pp kseed l pk sk (OpUpdate t seed) Hr) as H. cbn [step] in H. unfold sbind in H.
  rewrite Hu in H. exact H.
Qed.
Lemma reached_update_panic {E} (L : env_laws E) m (pp : pubparam E) kseed l pk sk t seed p sk' : pp_ok pp -> (pp_depth pp <= 32)%nat ->
  reached m pp kseed l pk sk -> update m pp t seed sk = (Panic p, sk') -> breaks_at m pp kseed l seed.
Proof.
  intros Hpp Hd Hr Hu. apply (reached_panic L m m pp kseed l pk sk (OpUpdate t seed) p Hpp Hd Hr).
  cbn [step]. unfold sbind. rewrite Hu. reflexivity.
Qed.
Lemma breaks_here {E} m (pp : pubparam E) kseed l o l' seed : op_seed o = seed -> breaks_at m pp kseed l seed ->
  breaks m pp [(kseed, l ++ o :: l')].
Proof. intros <- H. exists kseed, l, o, l'. split; [left; reflexivity|exact H]. Qed.
Lemma breaks_one {E} m (pp : pubparam E) h hs : In h hs -> breaks m pp [h] -> breaks m pp hs.
Proof. intros Hi (ks & l & o & l' & [Hh|[]] & H). subst h. exists ks, l, o, l'. auto. Qed.
Lemma snoc_cons {A} (l : list A) a l' : (l ++ [a]) ++ l' = l ++ a :: l'.
Proof. rewrite <- app_assoc. reflexivity. Qed.
Lemma rust_updates_breaks {E} (L : env_laws E) m (pp : pubparam E) kseed pk : pp_ok pp -> (pp_depth pp <= 32)%nat ->
  forall l h sk, reached m pp kseed h pk sk -> forall p, rust_updates m pp l sk = Panic p ->
  breaks m pp [(kseed, h ++ updates l)].
Proof.
  intros Hpp Hd. induction l as [|[t seed] l IH]; intros h sk Hr p H; cbn [rust_updates] in H; [discriminate H|].
  unfold updates. cbn [map fst snd]. destruct (update m pp t seed sk) as [[[]|e|q] sk1] eqn:Hu; [|discriminate H|].
  - pose proof (IH _ sk1 (reached_update m pp kseed h pk sk t seed sk1 Hr Hu) p H) as Hb. rewrite snoc_cons in Hb. exact Hb.
  - apply (breaks_here m pp kseed h (OpUpdate t seed) _ seed eq_refl).
    apply (reached_update_panic L m pp kseed h pk sk t seed q sk1 Hpp Hd Hr Hu).
Qed.
Lemma reached_same_state {E} (L : env_laws E) m (pp : pubparam E) kseed l pk sk t seed sk' : pp_ok pp -> (pp_depth pp <= 32)%nat ->
  reached m pp kseed l pk sk -> update m pp t seed sk = (Ok tt, sk') -> sec_prng sk' = sec_prng sk -> breaks_at m pp kseed l seed.
Proof.
  intros Hpp Hd Hr Hu He. pose proof (reached_reachable _ _ _ _ _ _ Hr) as Hr'.
  rewrite (update_steps L m m pp pk sk t seed sk' Hpp Hr' Hu) in He. cbn [fold_left] in He.
  rewrite <- reseed_after, <- draws_after in He.
  pose proof (reached_reachable _ _ _ _ _ _ (reached_update m pp kseed l pk sk t seed sk' Hr Hu)) as Hr1.
  destruct (reachable_good L m pp pk sk' Hpp Hr1) as (x & _ & _ & Hg & _). pose proof (ppo_depth pp Hpp).
  pose proof (tiling_length_le (pp_depth pp) _ _ ltac:(lia) (gsk_time _ _ _ Hg) (gsk_til _ _ _ Hg)) as Hlen. rewrite map_length in Hlen.
  assert (Hn : (length (new_stamps sk sk') <= length (sec_ssk sk'))%nat).
  { unfold new_stamps. rewrite <- (map_length sk_t (sec_ssk sk')). generalize (map sk_t (sec_ssk sk')) as a.
    induction a as [|u a IH]; [apply le_n|]. cbn [filter]. destruct (negb _); cbn [length]; lia. }
  destruct Hr as (sk0 & pop & Hk & <-). exists pk, sk0, pop. split; [exact Hk|].
  refine (cycle_breaks L m pp kseed pk sk0 pop l seed _ Hpp Hd Hk _ He). lia.
Qed.
Lemma update_moves_state : forall (E : env) (L : env_laws E) m (pp : pubparam E) kseed pk sk0 pop l t seed sk',
  pp_ok pp -> (pp_depth pp <= 32)%nat -> key_gen kseed pp = Ok (pk, sk0, pop) ->
  let sk := snd (run m pp l sk0) in
  update m pp t seed sk = (Ok tt, sk') -> sec_prng sk' <> sec_prng sk \/ breaks_at m pp kseed l seed.
Proof.
  intros E L m pp kseed pk sk0 pop l t seed sk' Hpp Hd Hk sk Hu.
  destruct (list_eq_dec N.eq_dec (sec_prng sk') (sec_prng sk)) as [He|He]; [right|left; exact He].
  apply (reached_same_state L m pp kseed l pk sk t seed sk' Hpp Hd); [exists sk0, pop; auto|exact Hu|exact He].
Qed.
