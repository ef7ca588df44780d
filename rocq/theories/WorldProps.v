(** Proofs about programs over the whole interface ([World], [SpecWorld]). *)
From Verif Require Import Base Env GroupFacts Time SpecTime TimeFacts SubKey SecretKey Keys Sig IO Serdes SpecSer Api SpecKey SubKeyFacts
  SpecUpdate KeyFacts HistoryFacts SpecTest SpecSig SpecAgg VerProps ValProps AnyProps AggProps OwnProps SerFacts SerProps IOFacts UpdateFacts FfiProps TestProps KeyProps World SpecWorld.
From Coq Require Import Lia ZifyBool ZifyNat ZifyN Permutation.
Local Open Scope N_scope.
Local Opaque fr_modulus.

(** * Lists *)
Lemma set_same {A} : forall i (a : A) l, nth_error l i = Some a -> set_nth i a l = l.
Proof.
  induction i as [|i IH]; intros a [|b l] H; cbn in *; try discriminate; [congruence|]. f_equal. apply IH, H.
Qed.
Lemma set_map {A B} (f : A -> B) : forall i a l, map f (set_nth i a l) = set_nth i (f a) (map f l).
Proof. induction i as [|i IH]; intros a [|b l]; cbn; try reflexivity. f_equal. apply IH. Qed.
Lemma F2_length {A B} (R : A -> B -> Prop) l l' : Forall2 R l l' -> length l = length l'.
Proof. induction 1; cbn; congruence. Qed.
Lemma F2_nth {A B} (R : A -> B -> Prop) d : forall l l', Forall2 R l l' -> forall i b, nth_error l' i = Some b ->
  (i < length l)%nat /\ R (nth i l d) b.
Proof.
  induction 1 as [|a b l l' Hr _ IH]; intros [|i] c H; cbn in *; try discriminate.
  - injection H as <-. split; [lia|exact Hr].
  - destruct (IH i c H). split; [lia|assumption].
Qed.
Lemma F2_nth_l {A B} (R : A -> B -> Prop) : forall l l', Forall2 R l l' -> forall i a, nth_error l i = Some a ->
  exists b, nth_error l' i = Some b /\ R a b.
Proof.
  induction 1 as [|a b l l' Hr _ IH]; intros [|i] c H; cbn in *; try discriminate.
  - injection H as <-. eauto.
  - apply IH, H.
Qed.
Lemma F2_nth_r {A B} (R : A -> B -> Prop) : forall l l', Forall2 R l l' -> forall i b, nth_error l' i = Some b ->
  exists a, nth_error l i = Some a /\ R a b.
Proof.
  induction 1 as [|a b l l' Hr _ IH]; intros [|i] c H; cbn in *; try discriminate.
  - injection H as <-. eauto.
  - apply IH, H.
Qed.
Lemma F2_set {A B} (R : A -> B -> Prop) d b : forall l l', Forall2 R l l' -> forall i, R (nth i l d) b -> Forall2 R l (set_nth i b l').
Proof.
  induction 1 as [|a c l l' Hr H IH]; intros [|i] Hb; cbn in *; constructor; auto.
Qed.
Lemma pick_map {A B} (f : A -> B) l : forall js, pick (map f l) js = option_map (map f) (pick l js).
Proof.
  induction js as [|j js IH]; [reflexivity|]. cbn [pick]. rewrite IH, nth_error_map.
  destruct (nth_error l j); cbn; [|reflexivity]. destruct (pick l js); reflexivity.
Qed.
Lemma pick_F2 {A B} (R : A -> B -> Prop) l l' : Forall2 R l l' -> forall js r', pick l' js = Some r' ->
  exists r, pick l js = Some r /\ Forall2 R r r'.
Proof.
  intros H. induction js as [|j js IH]; intros r' Hp; cbn [pick] in *.
  - injection Hp as <-. eauto.
  - destruct (nth_error l' j) as [b|] eqn:Ej; [|discriminate]. destruct (pick l' js) as [q'|]; [|discriminate]. injection Hp as <-.
    destruct (F2_nth_r R l l' H j b Ej) as (a & -> & Hab). destruct (IH q' eq_refl) as (r & -> & Hr). eauto.
Qed.
Lemma pick_none {A B} (R : A -> B -> Prop) l l' : Forall2 R l l' -> forall js, pick l' js = None -> pick l js = None.
Proof.
  intros H js Hp. destruct (pick l js) as [r|] eqn:E; [|reflexivity].
  assert (H' : Forall2 (fun b a => R a b) l' l) by (clear - H; induction H; constructor; auto).
  destruct (pick_F2 _ _ _ H' js r E) as (r' & Hr' & _). congruence.
Qed.
Lemma pick_length {A} (l : list A) : forall js r, pick l js = Some r -> length js = length r.
Proof.
  induction js as [|j js IH]; intros r H; cbn [pick] in H; [injection H as <-; reflexivity|].
  destruct (nth_error l j); [|discriminate]. destruct (pick l js); [|discriminate]. injection H as <-. cbn. f_equal. auto.
Qed.
Lemma pick_nth {A} d (l : list A) : forall js r, pick l js = Some r -> r = map (fun j => nth j l d) js /\ Forall (fun j => (j < length l)%nat) js.
Proof.
  induction js as [|j js IH]; intros r H; cbn [pick] in H; [injection H as <-; split; [reflexivity|constructor]|].
  destruct (nth_error l j) eqn:Ej; [|discriminate]. destruct (pick l js) as [q|]; [|discriminate]. injection H as <-.
  destruct (IH q eq_refl) as [-> Hf]. split.
  - cbn [map]. f_equal. symmetry. apply nth_error_nth, Ej.
  - constructor; [|exact Hf]. apply nth_error_Some. congruence.
Qed.
Lemma pick_ex {A} (l : list A) : forall js, Forall (fun j => (j < length l)%nat) js -> exists r, pick l js = Some r.
Proof.
  induction js as [|j js IH]; intros H; [eexists; reflexivity|]. inversion H; subst. cbn [pick].
  destruct (nth_error l j) eqn:Ej; [|apply nth_error_None in Ej; lia]. destruct (IH H3) as [r ->]. eauto.
Qed.

Lemma last_32 d : (d <= 32)%nat -> last_time d < 2 ^ 32.
Proof. intros Hd. unfold last_time. pose proof (pow2_le d 32 Hd). change (pow2 32) with (2 ^ 32) in *. pose proof (pow2_pos d). lia. Qed.

(** * Totals *)
Lemma total_app l l' : total (l ++ l') = total l + total l'.
Proof. induction l; cbn [app total]; lia. Qed.
Lemma total_perm l l' : Permutation l l' -> total l = total l'.
Proof. induction 1; cbn [total]; lia. Qed.
Lemma secret_app xs ks ks' : secret_of xs (ks ++ ks') = secret_of xs ks + secret_of xs ks'.
Proof. unfold secret_of. rewrite map_app. apply total_app. Qed.
Lemma secret_more xs ys ks : Forall (fun i => (i < length xs)%nat) ks -> secret_of (xs ++ ys) ks = secret_of xs ks.
Proof.
  unfold secret_of. induction 1 as [|i ks Hi _ IH]; [reflexivity|]. cbn [map total]. rewrite app_nth1 by exact Hi. lia.
Qed.
Lemma same_message {E} (pp : pubparam E) msg : forall ps, Forall (fun q => snd (fst q) = msg) ps ->
  signed pp ps = randomness ps * msg_scalar pp msg.
Proof.
  unfold signed, randomness. induction 1 as [|[[i m0] k] ps Hq _ IH]; [reflexivity|]. cbn [map total fst snd] in *. subst m0. lia.
Qed.

(** * Worth *)
Lemma worth_more {E} (pp : pubparam E) xs ys a s : worth pp xs a s -> worth pp (xs ++ ys) a s.
Proof.
  intros (Hne & Hl & v & Hn & ->). split; [exact Hne|]. split.
  - eapply Forall_impl; [|exact Hl]. intros i Hi. cbn beta in *. rewrite app_length. lia.
  - exists v. split; [exact Hn|]. rewrite secret_more by exact Hl. reflexivity.
Qed.

Section Worth.
Context {E : env} (L : env_laws E) (pp : pubparam E) (Hpp : pp_ok pp) (Hcs : valid_cs (pp_cs pp) = true).

Lemma worth_alg x1 x2 r1 r2 s1 s2 (h n l : G1 E) :
  g1_add (g1_add (g1_mul x1 h) (g1_add (g1_mul r1 n) (g1_mul s1 l))) (g1_add (g1_mul x2 h) (g1_add (g1_mul r2 n) (g1_mul s2 l)))
  = g1_add (g1_mul (x1 + x2) h) (g1_add (g1_mul (r1 + r2) n) (g1_mul (s1 + s2) l)).
Proof. g1_solve L. Qed.

Lemma worth_signed xs i t msg s : (i < length xs)%nat -> good_sig pp (nth i xs 0) t msg s ->
  exists k, worth pp xs (t, [(i, msg, k)]) s.
Proof.
  intros Hi (v & k & Hn & ->). exists k. split; [discriminate|]. split; [repeat constructor; exact Hi|].
  exists v. split; [exact Hn|]. unfold honest_sig, signers, randomness, signed, secret_of, sig_val, last_h. cbn [map fst snd total].
  rewrite !N.add_0_r. f_equal. f_equal. rewrite (l1_mul_dist E L), <- (l1_mul_mul E L). reflexivity.
Qed.

Lemma worth_sum xs t : forall anns sigs, Forall2 (worth pp xs) anns sigs -> Forall (fun a => fst a = t) anns -> anns <> [] ->
  forall s, sig_cs s = pp_cs pp -> sig_time s = t -> sig_1 s = sum2 (map sig_1 sigs) -> sig_2 s = sum1 (map sig_2 sigs) ->
  worth pp xs (t, concat (map snd anns)) s.
Proof.
  intros anns sigs H Ht Hne s Hc Hti H1 H2.
  assert (Hv : exists v, node_at (pp_depth pp) t v).
  { inversion H as [|a s0 ? ? (_ & _ & v & Hn & _)]; subst; [contradiction|].
    inversion Ht as [|? ? Ha _]; subst. cbn beta in Ha. rewrite Ha in Hn. eauto. }
  destruct Hv as [v Hv].
  assert (Hs : Forall (fun i => (i < length xs)%nat) (signers (concat (map snd anns)))
    /\ sum2 (map sig_1 sigs) = g2_mul (randomness (concat (map snd anns))) (pp_g2 pp)
    /\ sum1 (map sig_2 sigs) = g1_add (g1_mul (secret_of xs (signers (concat (map snd anns)))) (pp_h pp))
         (g1_add (g1_mul (randomness (concat (map snd anns))) (node_val pp v)) (g1_mul (signed pp (concat (map snd anns))) (last_h pp)))).
  { clear Hne H1 H2. induction H as [|a s0 anns sigs (Hne' & Hl & v' & Hn & ->) H IH].
    - cbn. split; [constructor|]. split; [symmetry; apply (l2_mul0 E L)|]. rewrite !(l1_mul0 E L), !(l1_zero E L). reflexivity.
    - inversion Ht as [|? ? Ha Ht']; subst. destruct (IH Ht') as (I1 & I2 & I3). clear IH.
      rewrite Ha in Hn. rewrite (node_at_fun _ _ _ _ Hn Hv). cbn [map concat sum1 sum2 fold_right sig_1 sig_2].
      fold (sum2 (map sig_1 sigs)). fold (sum1 (map sig_2 sigs)). rewrite I2, I3.
      unfold signers, randomness, signed in *. rewrite !map_app, !total_app, secret_app.
      split; [apply Forall_app; split; [exact Hl|exact I1]|]. split; [symmetry; apply (l2_mul_add E L)|apply worth_alg]. }
  destruct Hs as (I1 & I2 & I3). split; [|split; [exact I1|]].
  - inversion H as [|a s0 ? ? (Hn0 & _)]; subst; [contradiction|]. cbn [snd map concat]. intros Ha. apply app_eq_nil in Ha as [Ha _]. contradiction.
  - exists v. split; [exact Hv|]. destruct s as [c t0 s1 s2]. cbn [sig_cs sig_time sig_1 sig_2 fst snd] in *. congruence.
Qed.

Lemma worth_fields xs a s : worth pp xs a s -> sig_cs s = pp_cs pp /\ sig_time s = fst a.
Proof. intros (_ & _ & v & _ & ->). split; reflexivity. Qed.

(** * Verification *)
Context (Hg2 : pp_g2 pp = g2_one).

Lemma cancel_mid (a n b c l : G1 E) : g1_insub n = true ->
  (g1_add a (g1_add n l) = g1_add b (g1_add n c) <-> g1_add a l = g1_add b c).
Proof.
  intros Hn. split; intros H.
  - apply (g1_cancel L n); [exact Hn|]. rewrite !(l1_assoc E L), !(l1_comm E L n), <- !(l1_assoc E L). exact H.
  - apply (f_equal (g1_add n)) in H. rewrite !(l1_assoc E L), !(l1_comm E L n), <- !(l1_assoc E L) in H. exact H.
Qed.

Lemma verify_worth m xs t ps s ks msg cs : worth pp xs (t, ps) s ->
  exists b, verify m s (PubKey cs (g2_mul (secret_of xs ks) (pp_g2 pp))) pp msg = Ok b
            /\ (b = true <-> balances pp xs ps ks msg).
Proof.
  intros (_ & _ & v & Hn & Hs). cbn [fst snd] in *.
  destruct (verify_total E L m pp s (PubKey cs (g2_mul (secret_of xs ks) (pp_g2 pp))) msg Hpp) as [b Hb].
  exists b. split; [exact Hb|].
  assert (Hiff : verify m s (PubKey cs (g2_mul (secret_of xs ks) (pp_g2 pp))) pp msg = Ok true <-> balances pp xs ps ks msg).
  2:{ rewrite <- Hiff, Hb. split; [intros ->; reflexivity|intros [= ->]; reflexivity]. }
  rewrite (verify_second L m pp s _ msg (secret_of xs ks) (randomness ps)); auto.
  2:{ cbn [pk_pk]. rewrite Hg2. reflexivity. }
  2:{ rewrite Hs, Hg2. reflexivity. }
  assert (Heq : forall v0, node_at (pp_depth pp) (sig_time s) v0 ->
    (sig_2 s = second_part pp (secret_of xs ks) (randomness ps) v0 msg <-> balances pp xs ps ks msg)).
  { intros v0 Hn0. rewrite Hs in Hn0 |- *. cbn [sig_time sig_2] in *. rewrite (node_at_fun _ _ _ _ Hn0 Hn).
    unfold second_part, balances, sig_val. fold (last_h pp). rewrite (l1_mul_dist E L (randomness ps)), <- (l1_mul_mul E L).
    apply cancel_mid, (g1_mul_insub L), (node_val_insub L), Hpp. }
  split.
  - intros (_ & _ & v0 & Hn0 & H2). apply (Heq v0 Hn0), H2.
  - intros H. assert (Hn' : node_at (pp_depth pp) (sig_time s) v) by (rewrite Hs; exact Hn).
    split; [apply valid_cs_supported, Hcs|]. split; [rewrite Hs; reflexivity|]. exists v. split; [exact Hn'|]. apply (Heq v Hn'), H.
Qed.

Lemma keys_sum xs ps ks l : Forall2 (party_of pp) xs ps -> pick ps ks = Some l ->
  forallb (fun e => pp_cs pp =? pk_cs e) (map (fun p => fst (fst p)) l) = true
  /\ sum2 (map pk_pk (map (fun p => fst (fst p)) l)) = g2_mul (secret_of xs ks) (pp_g2 pp).
Proof.
  intros H. revert l. induction ks as [|k ks IH]; intros l Hp; cbn [pick] in Hp.
  - injection Hp as <-. split; [reflexivity|]. symmetry. apply (l2_mul0 E L).
  - destruct (nth_error ps k) as [p|] eqn:Ek; [|discriminate]. destruct (pick ps ks) as [q|]; [|discriminate]. injection Hp as <-.
    destruct (IH q eq_refl) as [I1 I2]. destruct (F2_nth _ 0 _ _ H k p Ek) as (_ & _ & Hpk & _).
    cbn [map forallb sum2 fold_right]. fold (sum2 (map pk_pk (map (fun p => fst (fst p)) q))). rewrite Hpk, I1, I2. cbn [pk_cs pk_pk].
    split; [rewrite N.eqb_refl; reflexivity|]. unfold secret_of. cbn [map total]. symmetry. apply (l2_mul_add E L).
Qed.

Lemma verify_agg_worth m xs ps0 t ps s ks l msg : Forall2 (party_of pp) xs ps0 -> pick ps0 ks = Some l -> l <> [] -> worth pp xs (t, ps) s ->
  exists b, verify_aggregated m s (map (fun p => fst (fst p)) l) pp msg = Ok b /\ (b = true <-> balances pp xs ps ks msg).
Proof.
  intros Hp Hk Hl Hw. destruct (keys_sum xs ps0 ks l Hp Hk) as [H1 H2].
  rewrite (verify_aggregated_sum L) by (destruct l; [contradiction|discriminate]). rewrite H1, H2. cbn [negb].
  apply (verify_worth m xs t ps s ks msg _ Hw).
Qed.

(** * Validation of a secret key under some public key *)
Lemma validate_other m x y sk : good_sk pp x sk ->
  exists b, sk_validate m sk (PubKey (pp_cs pp) (g2_mul y (pp_g2 pp))) pp = Ok b
            /\ (b = true <-> g1_mul x (pp_h pp) = g1_mul y (pp_h pp)).
Proof.
  intros Hg. pose proof Hg as [Hc Ht Htil Hh _]. set (pk := PubKey (pp_cs pp) (g2_mul y (pp_g2 pp))).
  assert (Hpk : g2_insub (pk_pk pk) = true) by (apply (g2_mul_insub L), Hpp).
  assert (Hx : forall z, g1_insub (g1_mul z (pp_h pp)) = true) by (intros z; apply (g1_mul_insub L), Hpp).
  assert (Hf : Forall (fun s => g2_insub (sk_g2r s) = true /\ g1_insub (sk_hpoly s) = true) (sec_ssk sk)).
  { eapply Forall_impl; [|exact Hh]. intros s (v & r & _ & ->). cbn [honest_ssk sk_g2r sk_hpoly].
    split; [apply (g2_mul_insub L), Hpp|]. apply (l1_sub_add E L); [apply Hx|apply (g1_mul_insub L), (node_val_insub L), Hpp]. }
  assert (Heq : forall s, honest pp x s -> (ssk_equation pp pk s <-> g1_mul x (pp_h pp) = g1_mul y (pp_h pp))).
  { intros s (v & r & Hn & Hs). unfold ssk_equation. rewrite Hs. cbn [honest_ssk sk_g2r sk_hpoly sk_t pk_pk pk].
    pose proof (node_val_insub L pp v Hpp) as Hv.
    assert (Hrv : g1_insub (g1_mul r (node_val pp v)) = true) by (apply (g1_mul_insub L), Hv). split.
    - intros (v' & Hn' & He). rewrite (node_at_fun _ _ _ _ Hn' Hn) in He.
      rewrite <- (pairing_honest L) in He; auto; try apply Hpp. apply (pairing_inj_r L) in He; auto; try apply Hpp.
      + rewrite !(l1_comm E L _ (g1_mul r (node_val pp v))) in He. apply (g1_cancel L) in He; auto.
      + apply (l1_sub_add E L); auto.
      + apply (l1_sub_add E L); auto.
      + rewrite Hg2. apply (l2_one_nz E L).
    - intros He. exists v. split; [exact Hn|]. rewrite <- (pairing_honest L); auto; try apply Hpp. rewrite He. reflexivity. }
  assert (Hne : sec_ssk sk <> []).
  { intros H0. rewrite H0 in Htil. apply tiling_nil_inv in Htil. unfold last_time in Ht. pose proof (pow2_pos (pp_depth pp)). lia. }
  assert (Hiff : sk_validate m sk pk pp = Ok true <-> g1_mul x (pp_h pp) = g1_mul y (pp_h pp)).
  { rewrite (validate_iff E L m pp sk pk Hpp Hpk Hf). split.
    - intros (_ & _ & _ & _ & Hall). destruct (sec_ssk sk) as [|s l]; [contradiction|].
      apply (Heq s); [apply (Forall_inv Hh)|apply (Forall_inv Hall)].
    - intros He. split; [exact Hc|]. split; [reflexivity|]. split; [exact Ht|]. split; [exists []; rewrite app_nil_r; exact Htil|].
      eapply Forall_impl; [|exact Hh]. intros s Hs. apply (Heq s Hs), He. }
  destruct (validate_any E L m pp sk pk Hpp Hpk Hf) as [Hnerr Hpan].
  destruct (sk_validate m sk pk pp) as [b|e|p] eqn:Ev.
  - exists b. split; [reflexivity|]. rewrite <- Hiff. split; [intros ->; reflexivity|intros [= ->]; reflexivity].
  - destruct (Hnerr e eq_refl).
  - exfalso. destruct (proj1 (Hpan p) eq_refl) as (_ & _ & _ & l1 & s & l2 & Hl & _ & Ht1 & _).
    pose proof (tiling_fun _ _ _ _ Htil Ht1) as Hm. rewrite Hl in Hm. apply (f_equal (@length _)) in Hm.
    rewrite !map_length, app_length in Hm. cbn [length] in Hm. lia.
Qed.

(** * One call on a key *)
Definition call_ok (i : nat) (x : N) (sk : seckey E) (o : op) (r : res (option (signature E))) (sk' : seckey E) : Prop :=
  good_sk pp x sk' /\
  match b_call (pp_depth pp) i (sec_time sk) o with
  | (Ok None, t) => r = Ok None /\ sec_time sk' = t
  | (Ok (Some (t0, es)), t) => exists s msg, es = [(i, msg)] /\ r = Ok (Some s) /\ good_sig pp x t0 msg s /\ sec_time sk' = t
  | (Err e, t) => r = Err e /\ sec_time sk' = t
  | (Panic _, _) => False
  end.

Lemma step_call m i x sk o : (pp_depth pp <= 32)%nat -> good_sk pp x sk ->
  (fst (step m pp o sk) = Panic P_PRNG /\ snd (step m pp o sk) = sk)
  \/ (fst (step m pp o sk) <> Panic P_PRNG /\ call_ok i x sk o (fst (step m pp o sk)) (snd (step m pp o sk))).
Proof.
  intros Hd Hg. unfold call_ok. destruct o as [t seed|t msg seed|t msg|t msg seed|c]; cbn [step b_call]; unfold sbind, sret.
  - pose proof (update_cases L m pp x sk t seed Hpp Hg) as H. unfold in_range in H.
    destruct ((sec_time sk <? t) && (t <=? last_time (pp_depth pp))).
    + destruct H as [(sk' & -> & Hg' & Ht)|[-> _]]; cbn [fst snd]; [|auto]. right. split; [discriminate|]. auto.
    + rewrite H. cbn [fst snd]. right. split; [discriminate|]. auto.
  - pose proof (sign_cases L m pp x sk t msg seed Hpp Hcs Hg) as H. unfold in_range in H. rewrite (N.eqb_sym t).
    destruct (N.eqb_spec (sec_time sk) t) as [He|Hne]; cbn [orb].
    + destruct H as (s & -> & Hs). cbn [fst snd]. right. split; [discriminate|]. split; [exact Hg|]. exists s, msg. auto.
    + destruct ((sec_time sk <? t) && (t <=? last_time (pp_depth pp))).
      * destruct H as [(s & sk' & -> & Hs & _ & Hg' & Ht)|[-> _]]; cbn [fst snd]; [|auto].
        right. split; [discriminate|]. split; [exact Hg'|]. exists s, msg. auto.
      * rewrite H. cbn [fst snd]. right. split; [discriminate|]. auto.
  - pose proof (sign_present_cases L m pp x sk t msg Hpp Hcs Hg) as H. rewrite (N.eqb_sym t).
    destruct (N.eqb_spec (sec_time sk) t) as [He|Hne].
    + destruct H as (s & -> & Hs). cbn [fst snd]. right. split; [discriminate|]. split; [exact Hg|]. exists s, msg. auto.
    + rewrite H. cbn [fst snd]. right. split; [discriminate|]. auto.
  - pose proof (sign_then_update_cases L m pp x sk t msg seed Hpp Hcs Hg) as H. rewrite (N.eqb_sym t).
    destruct (N.eqb_spec (sec_time sk) t) as [He|Hne]; cbn [andb].
    + replace ((sec_time sk <? sec_time sk + 1) && (sec_time sk + 1 <=? last_time (pp_depth pp))) with (t <? last_time (pp_depth pp)) by lia.
      destruct (t <? last_time (pp_depth pp)).
      * destruct H as [(s & sk' & -> & Hs & _ & _ & Hg' & Ht)|[-> _]]; cbn [fst snd]; [|auto].
        right. split; [discriminate|]. split; [exact Hg'|]. exists s, msg. rewrite He. auto.
      * rewrite H. cbn [fst snd]. right. split; [discriminate|]. auto.
    + rewrite H. cbn [fst snd]. right. split; [discriminate|]. auto.
  - rewrite (reload_ok L c pp x sk) by auto. cbn [fst snd]. right. split; [discriminate|]. auto.
Qed.
End Worth.

(** * One command *)
Section Exec.
Context {E : env} (L : env_laws E) (m : mode) (pp : pubparam E) (Hpp : pp_ok pp) (Hcs : valid_cs (pp_cs pp) = true)
  (Hg2 : pp_g2 pp = g2_one) (Hd : (pp_depth pp <= 32)%nat).

Lemma party_key xs ps i p : Forall2 (party_of pp) xs ps -> nth_error ps i = Some p ->
  (i < length xs)%nat /\ fst (fst p) = PubKey (pp_cs pp) (g2_mul (secret_of xs [i]) (pp_g2 pp)) /\ good_sk pp (nth i xs 0) (snd (fst p))
  /\ pk_validate (fst (fst p)) (snd p) = true.
Proof.
  intros H Hi. destruct (F2_nth _ 0 _ _ H i p Hi) as (Hl & _ & Hk & Hg & Hv). split; [exact Hl|]. split; [|auto].
  rewrite Hk. unfold secret_of. cbn [map total]. rewrite N.add_0_r. reflexivity.
Qed.

Lemma agg_same xs anns sigs : Forall2 (worth pp xs) anns sigs -> forall s l, sigs = s :: l -> forall a al, anns = a :: al ->
  aggregate sigs = (if forallb (fun e => fst e =? fst a) al
                    then Ok (Signature (pp_cs pp) (fst a) (sum2 (map sig_1 sigs)) (sum1 (map sig_2 sigs))) else Err E_TIME_STAMP).
Proof.
  intros H s l -> a al ->. inversion H as [|? ? ? ? Ha Hal]; subst. destruct (worth_fields pp xs a s Ha) as [Hc Ht].
  assert (Hchk : agg_check s l = if forallb (fun e => fst e =? fst a) al then Ok tt else Err E_TIME_STAMP).
  { clear H. induction Hal as [|a' s' al l Ha' _ IH]; [reflexivity|]. cbn [agg_check forallb].
    destruct (worth_fields pp xs a' s' Ha') as [Hc' Ht']. rewrite Hc, Hc', N.eqb_refl, Ht, Ht', (N.eqb_sym (fst a)). cbn [negb].
    destruct (fst a' =? fst a); cbn [negb andb]; [exact IH|reflexivity]. }
  destruct (forallb (fun e => fst e =? fst a) al) eqn:Ef.
  - destruct (aggregate (s :: l)) as [x|e|p] eqn:Eg.
    + f_equal. apply (aggregate_ok L) in Eg as (_ & Hf & H1 & H2). apply Forall_inv in Hf as [Hf1 Hf2].
      destruct x as [c t x1 x2]. cbn [sig_cs sig_time sig_1 sig_2] in *. congruence.
    + cbn [aggregate] in Eg. rewrite Hchk in Eg. discriminate.
    + cbn [aggregate] in Eg. rewrite Hchk in Eg. discriminate.
  - cbn [aggregate]. rewrite Hchk. reflexivity.
Qed.

Lemma worth_wf xs a s : worth pp xs a s -> wf_sig s.
Proof.
  intros (_ & _ & v & Hn & ->). apply node_at_range in Hn. pose proof (last_32 (pp_depth pp) Hd). constructor; cbn [sig_cs sig_time sig_1 sig_2].
  - apply valid_cs_supported, Hcs.
  - lia.
  - apply (g2_mul_insub L), Hpp.
  - apply (l1_sub_add E L); [apply (g1_mul_insub L), Hpp|]. apply (l1_sub_add E L); apply (g1_mul_insub L).
    + apply (node_val_insub L), Hpp.
    + apply (Forall_nth_insub L), Hpp.
Qed.

Definition grows (xs : list N) (ann : list (N * list part)) (b : book) (w : world E) : Prop :=
  exists ys zs, world_is pp (xs ++ ys) (ann ++ zs) b w.
Lemma grows_same xs ann b w : world_is pp xs ann b w -> grows xs ann b w.
Proof. intros H. exists [], []. rewrite !app_nil_r. exact H. Qed.
Lemma grows_sig xs ann b w a s : world_is pp xs ann b w -> worth pp xs a s ->
  grows xs ann (Book (b_times b) (b_sigs b ++ [booked a])) (with_sig w s).
Proof.
  intros [H1 H2 H3 H4] Ha. exists [], [a]. rewrite app_nil_r. constructor; cbn; auto.
  - apply Forall2_app; [exact H3|]. constructor; [exact Ha|constructor].
  - rewrite H4, map_app. reflexivity.
Qed.
Lemma world_with xs ann b w i pk sk pop sk' : world_is pp xs ann b w -> nth_error (w_party w) i = Some (pk, sk, pop) ->
  good_sk pp (nth i xs 0) sk' ->
  world_is pp xs ann (Book (set_nth i (sec_time sk') (b_times b)) (b_sigs b)) (with_party w i (pk, sk', pop)).
Proof.
  intros [H1 H2 H3 H4] Hi Hg. constructor; cbn; auto.
  - apply (F2_set _ 0); [exact H1|]. destruct (F2_nth _ 0 _ _ H1 i _ Hi) as (_ & Hx & Hk & _ & Hv). split; [exact Hx|]. auto.
  - rewrite set_map, H2. reflexivity.
Qed.

Lemma exec_ok c xs ann b w : world_is pp xs ann b w ->
  (fst (exec m pp c w) = Panic P_PRNG /\ snd (exec m pp c w) = w)
  \/ (fst (exec m pp c w) <> Panic P_PRNG /\ agrees pp xs ann (fst (b_exec (pp_depth pp) c b)) (fst (exec m pp c w))
      /\ grows xs ann (snd (b_exec (pp_depth pp) c b)) (snd (exec m pp c w))).
Proof.
  intros H. pose proof H as [H1 H2 H3 H4]. destruct c as [seed|i o|js|j i msg|j ks msg|i k|i k|j|i c]; cbn [exec b_exec].
  - right. destruct (Nat.lt_ge_cases (length seed) 32) as [Hs|Hs].
    + rewrite key_gen_short by exact Hs. replace (length seed <? 32)%nat with true by lia. cbn [fst snd agrees].
      split; [discriminate|]. split; [reflexivity|]. apply grows_same, H.
    + replace (length seed <? 32)%nat with false by lia.
      destruct (pp_hlist pp) as [|h0 hs] eqn:Eh; [pose proof (ppo_len pp Hpp) as Hl; rewrite Eh in Hl; cbn in Hl; lia|].
      destruct (key_gen_head L pp seed h0 hs Hs Hcs Eh) as (s0 & Hk & _). rewrite Hk. cbn [fst snd agrees].
      split; [discriminate|]. split; [exact I|].
      destruct (key_gen_good L pp seed _ _ _ Hpp Hk) as (x & Hx & Hpk & Hg & Ht & _).
      exists [x], []. rewrite app_nil_r. constructor; cbn; auto.
      * apply Forall2_app; [exact H1|]. constructor; [|constructor]. split; [exact Hx|]. cbn [fst snd]. split; [exact Hpk|].
        split; [exact Hg|]. eapply (keygen_pop E L); eauto.
      * rewrite H2, map_app. cbn. reflexivity.
      * clear - H3. revert H3. generalize (w_sigs w) as sl. induction 1; [constructor|]. constructor; [apply worth_more; assumption|assumption].
  - rewrite H2, nth_error_map. destruct (nth_error (w_party w) i) as [[[pk sk] pop]|] eqn:Ei; cbn [option_map fst snd].
    2:{ right. split; [discriminate|]. split; [exact I|]. apply grows_same, H. }
    destruct (party_key xs _ i _ H1 Ei) as (Hi & _ & Hg & _). cbn [fst snd] in Hg.
    destruct (step_call L pp Hpp Hcs m i (nth i xs 0) sk o Hd Hg) as [[Hr Hk]|[Hr [Hg' Hc]]].
    + left. destruct (step m pp o sk) as [r sk']. cbn [fst snd] in *. subst r sk'. cbn [fst snd]. split; [reflexivity|].
      unfold with_party. rewrite (set_same i _ _ Ei). destruct w; reflexivity.
    + right. destruct (step m pp o sk) as [r sk']. cbn [fst snd] in *.
      pose proof (world_with xs ann b w i pk sk pop sk' H Ei Hg') as Hw. rewrite H2 in Hw.
      destruct (b_call (pp_depth pp) i (sec_time sk) o) as [[[[t0 es]|]|e|p] t']; [| | |contradiction].
      * destruct Hc as (s & msg & -> & -> & Hs & <-). cbn [fst snd]. split; [discriminate|]. split; [exact I|].
        destruct (worth_signed L pp xs i t0 msg s Hi Hs) as [k Hk]. apply (grows_sig _ _ _ _ _ _ Hw Hk).
      * destruct Hc as (-> & <-). cbn [fst snd]. split; [discriminate|]. split; [exact I|]. apply grows_same, Hw.
      * destruct Hc as (-> & <-). cbn [fst snd]. split; [discriminate|]. split; [reflexivity|]. apply grows_same, Hw.
  - right. rewrite H4, pick_map. destruct (pick (w_sigs w) js) as [l|] eqn:El.
    2:{ rewrite (pick_none _ _ _ H3 js El). cbn. split; [discriminate|]. split; [exact I|]. apply grows_same, H. }
    destruct (pick_F2 _ _ _ H3 js l El) as (al & -> & Hal). cbn [option_map].
    inversion Hal as [E1 E2|a s al' l' Ha Hal' E1 E2].
    + cbn. split; [discriminate|]. split; [reflexivity|]. apply grows_same, H.
    + cbn [map].
      match goal with |- context [forallb ?f (map booked al')] =>
        assert (Hsw : forallb f (map booked al') = forallb (fun e => fst e =? fst a) al') end.
      { clear. induction al' as [|x al' IH]; [reflexivity|]. cbn [map forallb]. rewrite IH. reflexivity. }
      rewrite Hsw. clear Hsw. rewrite (agg_same xs (a :: al') (s :: l') ltac:(constructor; assumption) s l' eq_refl a al' eq_refl).
      destruct (forallb (fun e => fst e =? fst a) al') eqn:Ef; cbn [fst snd].
      * split; [discriminate|]. split; [exact I|].
        match goal with |- grows _ _ (Book _ (_ ++ [?e])) _ =>
          replace e with (booked (fst a, concat (map snd (a :: al')))) end.
        2:{ unfold booked. cbn [fst snd map concat]. f_equal. rewrite map_app. f_equal. rewrite concat_map, !map_map. reflexivity. }
        rewrite <- H4. apply grows_sig; [exact H|].
        apply (worth_sum L pp xs (fst a) (a :: al') (s :: l')); auto; try discriminate.
        constructor; [reflexivity|]. apply Forall_forall. intros x Hx. rewrite forallb_forall in Ef. specialize (Ef x Hx). lia.
      * split; [discriminate|]. split; [reflexivity|]. apply grows_same, H.
  - right. rewrite H2, H4, !nth_error_map. destruct (nth_error (w_sigs w) j) as [s|] eqn:Ej.
    2:{ destruct (nth_error ann j) as [a|] eqn:Ea; cbn [option_map].
        - destruct (F2_nth_l _ _ _ H3 j a Ea) as (s & Hs & _). congruence.
        - cbn. split; [discriminate|]. split; [exact I|]. apply grows_same, H. }
    destruct (F2_nth_r _ _ _ H3 j s Ej) as ([t ps] & Ea & Hw). rewrite Ea. cbn [option_map].
    destruct (nth_error (w_party w) i) as [p|] eqn:Ei; cbn [option_map].
    2:{ cbn. split; [discriminate|]. split; [exact I|]. apply grows_same, H. }
    destruct (party_key xs _ i _ H1 Ei) as (_ & Hk & _). rewrite Hk.
    destruct (verify_worth L pp Hpp Hcs Hg2 m xs t ps s [i] msg (pp_cs pp) Hw) as (bb & -> & Hb). cbn [answer bind fst snd agrees].
    split; [discriminate|]. split; [exists t, ps; auto|]. apply grows_same, H.
  - right. rewrite H2, H4, pick_map, nth_error_map. destruct (nth_error (w_sigs w) j) as [s|] eqn:Ej.
    2:{ destruct (nth_error ann j) as [a|] eqn:Ea; cbn [option_map].
        - destruct (F2_nth_l _ _ _ H3 j a Ea) as (s & Hs & _). congruence.
        - cbn. split; [discriminate|]. split; [exact I|]. apply grows_same, H. }
    destruct (F2_nth_r _ _ _ H3 j s Ej) as ([t ps] & Ea & Hw). rewrite Ea. cbn [option_map].
    destruct (pick (w_party w) ks) as [l|] eqn:El; cbn [option_map].
    2:{ cbn. split; [discriminate|]. split; [exact I|]. apply grows_same, H. }
    destruct l as [|p l].
    + cbn [map]. destruct (empty_lists_panic E m pp s msg) as [_ Hp]. rewrite Hp by apply (worth_fields pp xs _ s Hw). cbn.
      split; [discriminate|]. split; [reflexivity|]. apply grows_same, H.
    + destruct (verify_agg_worth L pp Hpp Hcs Hg2 m xs (w_party w) t ps s ks (p :: l) msg H1 El ltac:(discriminate) Hw) as (bb & -> & Hb).
      cbn [map answer bind fst snd agrees]. split; [discriminate|]. split; [exists t, ps; auto|]. apply grows_same, H.
  - right. rewrite H2, !nth_error_map. destruct (nth_error (w_party w) i) as [p|] eqn:Ei; cbn [option_map].
    2:{ cbn. split; [discriminate|]. split; [exact I|]. apply grows_same, H. }
    destruct (nth_error (w_party w) k) as [q|] eqn:Ek; cbn [option_map fst snd agrees]; (split; [discriminate|]); split; try exact I; try (apply grows_same, H).
    intros <-. rewrite Ei in Ek. injection Ek as <-. apply (party_key xs _ i p H1 Ei).
  - right. rewrite H2, !nth_error_map. destruct (nth_error (w_party w) i) as [p|] eqn:Ei; cbn [option_map].
    2:{ cbn. split; [discriminate|]. split; [exact I|]. apply grows_same, H. }
    destruct (nth_error (w_party w) k) as [q|] eqn:Ek; cbn [option_map].
    2:{ cbn. split; [discriminate|]. split; [exact I|]. apply grows_same, H. }
    destruct (party_key xs _ i p H1 Ei) as (_ & _ & Hg & _). destruct (F2_nth _ 0 _ _ H1 k q Ek) as (_ & _ & -> & _).
    destruct (validate_other L pp Hpp Hcs Hg2 m (nth i xs 0) (nth k xs 0) _ Hg) as (bb & -> & Hb). cbn [answer bind fst snd agrees].
    split; [discriminate|]. split; [exact Hb|]. apply grows_same, H.
  - right. destruct (nth_error (w_sigs w) j) as [s|] eqn:Ej.
    2:{ cbn. split; [discriminate|]. split; [exact I|]. apply grows_same, H. }
    destruct (F2_nth_r _ _ _ H3 j s Ej) as (a & Ea & Hw). pose proof (worth_wf xs a s Hw) as Hwf.
    destruct (sig_roundtrip E L s Hwf) as (Hv & _). rewrite Hv. cbn [bind]. rewrite (slice_sig L s Hwf). cbn [fst snd agrees].
    split; [discriminate|]. split; [exact I|]. rewrite (set_same j s _ Ej). destruct w; apply grows_same, H.
  - right. destruct (nth_error (w_party w) i) as [[[pk sk] pop]|] eqn:Ei.
    2:{ cbn. split; [discriminate|]. split; [exact I|]. apply grows_same, H. }
    destruct (party_key xs _ i _ H1 Ei) as (_ & Hk & _). cbn [fst snd] in Hk.
    assert (Hwf : wf_pk pk).
    { rewrite Hk. constructor; cbn [pk_cs pk_pk]; [apply valid_cs_supported, Hcs|apply (g2_mul_insub L), Hpp]. }
    destruct (pk_roundtrip E L c pk Hwf) as (Hv & _). rewrite Hv. cbn [bind]. rewrite (slice_pk L c pk Hwf). cbn [fst snd agrees].
    split; [discriminate|]. split; [exact I|]. unfold with_party. rewrite (set_same i _ _ Ei). destruct w; apply grows_same, H.
Qed.

Lemma execs_ok : forall p xs ann b w, world_is pp xs ann b w ->
  grows xs ann (b_run (pp_depth pp) p (fst (execs m pp p w)) b) (snd (execs m pp p w)).
Proof.
  induction p as [|c p IH]; intros xs ann b w H; [apply grows_same, H|]. cbn [execs].
  pose proof (exec_ok c xs ann b w H) as Hc. destruct (exec m pp c w) as [r w1] eqn:Ec. cbn [fst snd] in Hc.
  destruct Hc as [[-> ->]|(Hr & _ & ys & zs & Hw)].
  - specialize (IH xs ann b w H). destruct (execs m pp p w) as [rs w2]. exact IH.
  - destruct (IH _ _ _ _ Hw) as (ys' & zs' & Hw'). destruct (execs m pp p w1) as [rs w2]. cbn [fst snd b_run] in *.
    exists (ys ++ ys'), (zs ++ zs'). rewrite !app_assoc.
    destruct r as [x|e|q]; [exact Hw'|exact Hw'|]. destruct q; try exact Hw'. contradiction.
Qed.
End Exec.

(** * Programs *)
Lemma map_fst_fst (ps : list part) : map fst (map fst ps) = signers ps.
Proof. apply map_map. Qed.
Lemma start_is {E} (pp : pubparam E) : world_is pp [] [] (Book [] []) start.
Proof. constructor; cbn; constructor. Qed.

Lemma world_simulated : forall (E : env) (L : env_laws E) m (pp : pubparam E) p,
  pp_ok pp -> (pp_cs pp = 0 \/ pp_cs pp = 1) -> (pp_depth pp <= 32)%nat -> pp_g2 pp = g2_one ->
  exists xs ann, world_is pp xs ann (books m pp p) (after m pp p)
    /\ forall c, (fst (exec m pp c (after m pp p)) = Panic P_PRNG /\ snd (exec m pp c (after m pp p)) = after m pp p)
                 \/ (fst (exec m pp c (after m pp p)) <> Panic P_PRNG
                     /\ agrees pp xs ann (fst (b_exec (pp_depth pp) c (books m pp p))) (fst (exec m pp c (after m pp p)))).
Proof.
  intros E L m pp p Hpp Hc Hd Hg. apply valid_cs_iff in Hc.
  destruct (execs_ok L m pp Hpp Hc Hg Hd p [] [] _ _ (start_is pp)) as (xs & ann & H). cbn [app] in H.
  exists xs, ann. split; [exact H|]. intros c. destruct (exec_ok L m pp Hpp Hc Hg Hd c xs ann _ _ H) as [Hp|(Hr & Ha & _)]; auto.
Qed.

Section Judge.
Context {E : env} (L : env_laws E) (m : mode) (pp : pubparam E) (Hpp : pp_ok pp) (Hcs : pp_cs pp = 0 \/ pp_cs pp = 1)
  (Hd : (pp_depth pp <= 32)%nat) (Hg2 : pp_g2 pp = g2_one).

(** Everything about signature [j] of the program, at once. *)
Lemma judged p j t es : nth_error (b_sigs (books m pp p)) j = Some (t, es) ->
  exists xs ps s, Forall2 (party_of pp) xs (w_party (after m pp p)) /\ es = map fst ps
    /\ nth_error (w_sigs (after m pp p)) j = Some s /\ worth pp xs (t, ps) s
    /\ (forall ks msg, ks <> [] -> Forall (fun k => (k < length (w_party (after m pp p)))%nat) ks ->
          exists b, fst (exec m pp (VerifyAggregated j ks msg) (after m pp p)) = Ok (Some b) /\ (b = true <-> balances pp xs ps ks msg))
    /\ (forall i msg, (i < length (w_party (after m pp p)))%nat ->
          exists b, fst (exec m pp (Verify j i msg) (after m pp p)) = Ok (Some b) /\ (b = true <-> balances pp xs ps [i] msg)).
Proof.
  intros Hj. destruct (world_simulated E L m pp p Hpp Hcs Hd Hg2) as (xs & ann & Hw & Hx). pose proof Hw as [H1 H2 H3 H4].
  pose proof Hj as Hj'. rewrite H4, nth_error_map in Hj. destruct (nth_error ann j) as [[t' ps]|] eqn:Ea; [|discriminate]. injection Hj as -> <-.
  destruct (F2_nth_l _ _ _ H3 j _ Ea) as (s & Es & Hs). exists xs, ps, s.
  split; [exact H1|]. split; [reflexivity|]. split; [exact Es|]. split; [exact Hs|]. split.
  - intros ks msg Hne Hks. destruct (Hx (VerifyAggregated j ks msg)) as [[Hp _]|[_ Ha]].
    + exfalso. cbn [exec] in Hp. rewrite Es in Hp. destruct (pick_ex _ _ Hks) as (l & Hl). rewrite Hl in Hp.
      assert (Hln : l <> []) by (intros ->; apply pick_length in Hl; destruct ks; [contradiction|discriminate]).
      assert (Hv : valid_cs (pp_cs pp) = true) by (apply valid_cs_iff, Hcs).
      destruct (verify_agg_worth L pp Hpp Hv Hg2 m xs _ t ps s ks l msg H1 Hl Hln Hs) as (b & Hb & _).
      cbn [fst] in Hp. rewrite Hb in Hp. discriminate.
    + cbn [b_exec] in Ha. rewrite Hj' in Ha.
      destruct (pick_ex (b_times (books m pp p)) ks) as (l & Hl). { rewrite H2, map_length. exact Hks. }
      rewrite Hl in Ha. destruct l as [|u l]; [apply pick_length in Hl; destruct ks; [contradiction|discriminate]|]. cbn [fst agrees] in Ha.
      destruct (fst (exec m pp (VerifyAggregated j ks msg) (after m pp p))) as [[b|]|e|q]; try contradiction.
      destruct Ha as (t0 & ps0 & Ha & Hb). rewrite Ea in Ha. injection Ha as <- <-. eauto.
  - intros i msg Hi. destruct (nth_error (w_party (after m pp p)) i) as [q|] eqn:Ei; [|apply nth_error_None in Ei; lia].
    assert (Hv : valid_cs (pp_cs pp) = true) by (apply valid_cs_iff, Hcs).
    cbn [exec]. rewrite Es, Ei. destruct (party_key pp xs _ i _ H1 Ei) as (_ & Hk & _). rewrite Hk.
    destruct (verify_worth L pp Hpp Hv Hg2 m xs t ps s [i] msg (pp_cs pp) Hs) as (b & -> & Hb). cbn [answer bind fst]. eauto.
Qed.

Lemma secret_perm xs ks ks' : Permutation ks ks' -> secret_of xs ks = secret_of xs ks'.
Proof. intros H. apply total_perm, Permutation_map, H. Qed.

Lemma signers_in p j t es : nth_error (b_sigs (books m pp p)) j = Some (t, es) ->
  es <> [] /\ Forall (fun k => (k < length (w_party (after m pp p)))%nat) (map fst es).
Proof.
  intros Hj. destruct (judged p j t es Hj) as (xs & ps & s & H1 & -> & _ & (Hne & Hl & _) & _). cbn [snd] in *.
  split; [destruct ps; [contradiction|discriminate]|]. rewrite map_fst_fst, <- (F2_length _ _ _ H1). exact Hl.
Qed.
End Judge.

Lemma program_complete : forall (E : env) (L : env_laws E) m (pp : pubparam E) p j t es ks msg,
  pp_ok pp -> (pp_cs pp = 0 \/ pp_cs pp = 1) -> (pp_depth pp <= 32)%nat -> pp_g2 pp = g2_one ->
  nth_error (b_sigs (books m pp p)) j = Some (t, es) -> Forall (fun e => snd e = msg) es -> Permutation (map fst es) ks ->
  fst (exec m pp (VerifyAggregated j ks msg) (after m pp p)) = Ok (Some true)
  /\ forall i, ks = [i] -> fst (exec m pp (Verify j i msg) (after m pp p)) = Ok (Some true).
Proof.
  intros E L m pp p j t es ks msg Hpp Hc Hd Hg Hj Hm Hp.
  destruct (signers_in L m pp Hpp Hc Hd Hg p j t es Hj) as [Hne Hin].
  destruct (judged L m pp Hpp Hc Hd Hg p j t es Hj) as (xs & ps & s & _ & -> & _ & _ & Ha & Hv).
  assert (Hb : balances pp xs ps ks msg).
  { unfold balances. rewrite (same_message pp msg ps). 2:{ clear - Hm. apply Forall_map in Hm. exact Hm. }
    rewrite map_fst_fst in Hp.
    rewrite (secret_perm xs _ _ Hp). reflexivity. }
  assert (Hks : ks <> []) by (intros ->; apply Permutation_sym, Permutation_nil in Hp; destruct ps; [contradiction|discriminate]).
  assert (Hki : Forall (fun k => (k < length (w_party (after m pp p)))%nat) ks) by (eapply Permutation_Forall; eauto).
  split.
  - destruct (Ha ks msg Hks Hki) as (b & -> & Hb'). rewrite (proj2 Hb' Hb). reflexivity.
  - intros i ->. destruct (Hv i msg) as (b & -> & Hb'); [inversion Hki; assumption|]. rewrite (proj2 Hb' Hb). reflexivity.
Qed.

Lemma keys_of_sum {E} (L : env_laws E) (pp : pubparam E) xs w ks : Forall2 (party_of pp) xs (w_party w) ->
  Forall (fun k => (k < length (w_party w))%nat) ks -> key_sum (keys_of w ks) = g2_mul (secret_of xs ks) (pp_g2 pp).
Proof.
  intros H Hk. destruct (pick_ex _ _ Hk) as (l & Hl). unfold keys_of. rewrite pick_map, Hl. cbn [option_map].
  rewrite <- key_sum_sum2. apply (keys_sum L pp xs (w_party w) ks l H Hl).
Qed.

Lemma program_signers : forall (E : env) (L : env_laws E) m (pp : pubparam E) p j t es ks msg,
  pp_ok pp -> (pp_cs pp = 0 \/ pp_cs pp = 1) -> (pp_depth pp <= 32)%nat -> pp_g2 pp = g2_one -> pp_h pp <> g1_zero ->
  nth_error (b_sigs (books m pp p)) j = Some (t, es) -> Forall (fun e => snd e = msg) es ->
  ks <> [] -> Forall (fun k => (k < length (w_party (after m pp p)))%nat) ks ->
  (fst (exec m pp (VerifyAggregated j ks msg) (after m pp p)) = Ok (Some true)
   <-> key_sum (keys_of (after m pp p) (map fst es)) = key_sum (keys_of (after m pp p) ks)).
Proof.
  intros E L m pp p j t es ks msg Hpp Hc Hd Hg Hh Hj Hm Hks Hki.
  destruct (signers_in L m pp Hpp Hc Hd Hg p j t es Hj) as [_ Hin].
  destruct (judged L m pp Hpp Hc Hd Hg p j t es Hj) as (xs & ps & s & H1 & -> & _ & _ & Ha & _).
  rewrite !(keys_of_sum L pp xs) by assumption. rewrite map_fst_fst in *.
  assert (Hb : balances pp xs ps ks msg <-> g1_mul (secret_of xs (signers ps)) (pp_h pp) = g1_mul (secret_of xs ks) (pp_h pp)).
  { unfold balances. rewrite (same_message pp msg ps). 2:{ clear - Hm. apply Forall_map in Hm. exact Hm. }
    split; [|intros ->; reflexivity]. intros H. rewrite !(l1_comm E L _ (g1_mul (randomness ps * msg_scalar pp msg) (last_h pp))) in H.
    apply (g1_cancel L) in H; [exact H|]. apply (g1_mul_insub L), (Forall_nth_insub L), Hpp. }
  destruct (Ha ks msg Hks Hki) as (b & -> & Hb').
  transitivity (b = true); [split; [intros [= ->]; reflexivity|intros ->; reflexivity]|]. rewrite Hb', Hb.
  assert (Hs : forall x, pairing (g2_mul x (pp_g2 pp)) (pp_h pp) = pairing (pp_g2 pp) (g1_mul x (pp_h pp)))
    by (intros x; apply (pairing_mul_swap L); apply Hpp).
  split; intros H.
  - apply (pairing_inj_l L _ _ (pp_h pp)); try (apply (g2_mul_insub L)); try apply Hpp; auto. rewrite !Hs, H. reflexivity.
  - apply (pairing_inj_r L (pp_g2 pp)); try (apply (g1_mul_insub L)); try apply Hpp. { rewrite Hg. apply (l2_one_nz E L). }
    rewrite <- !Hs, H. reflexivity.
Qed.

Lemma program_message : forall (E : env) (L : env_laws E) m (pp : pubparam E) p j t i msg0 msg s,
  pp_ok pp -> (pp_cs pp = 0 \/ pp_cs pp = 1) -> (pp_depth pp <= 32)%nat -> pp_g2 pp = g2_one ->
  nth (pp_depth pp) (pp_hlist pp) g1_zero <> g1_zero ->
  nth_error (b_sigs (books m pp p)) j = Some (t, [(i, msg0)]) -> nth_error (w_sigs (after m pp p)) j = Some s ->
  (fst (exec m pp (Verify j i msg) (after m pp p)) = Ok (Some true)
   <-> sig_1 s = g2_zero \/ msg_scalar pp msg0 = msg_scalar pp msg).
Proof.
  intros E L m pp p j t i msg0 msg s Hpp Hc Hd Hg Hl Hj Hs.
  destruct (signers_in L m pp Hpp Hc Hd Hg p j t _ Hj) as [_ Hin].
  destruct (judged L m pp Hpp Hc Hd Hg p j t _ Hj) as (xs & ps & s' & _ & Hps & Hs' & (_ & _ & v & _ & Hw) & _ & Hv).
  rewrite Hs in Hs'. injection Hs' as <-.
  destruct ps as [|[[i' m'] k] [|q ps]]; try discriminate. cbn [map fst] in Hps. injection Hps as <- <-.
  destruct (Hv i msg) as (b & -> & Hb). { cbn [map fst] in Hin. inversion Hin; assumption. }
  transitivity (b = true); [split; [intros [= ->]; reflexivity|intros ->; reflexivity]|]. rewrite Hb. clear b Hb Hv.
  assert (H1 : sig_1 s = g2_mul k (pp_g2 pp)).
  { rewrite Hw. cbn [sig_1 snd]. unfold randomness. cbn [map snd total]. rewrite N.add_0_r. reflexivity. }
  rewrite H1. clear H1 Hw Hs. unfold balances, signers, randomness, signed, secret_of. cbn [map fst snd total]. rewrite !N.add_0_r.
  assert (Hi : forall y, g1_insub (g1_mul y (last_h pp)) = true) by (intros y; apply (g1_mul_insub L), (Forall_nth_insub L), Hpp).
  assert (Hsw : forall y, pairing (g2_mul k (pp_g2 pp)) (g1_mul y (last_h pp)) = pairing (pp_g2 pp) (g1_mul (k * y) (last_h pp))).
  { intros y. rewrite (l1_mul_mul E L). apply (pairing_mul_swap L); [apply Hpp|apply Hi]. }
  split; intros H.
  - apply (g1_cancel L) in H; [|apply (g1_mul_insub L), Hpp].
    destruct (g2_eqb (g2_mul k (pp_g2 pp)) g2_zero) eqn:Ez; [left; apply (l2_eqb E L), Ez|]. right.
    apply (mul_inj L (last_h pp)); auto using msg_scalar_lt. { apply (Forall_nth_insub L), Hpp. }
    apply (pairing_inj_r L (g2_mul k (pp_g2 pp))); auto. { apply (g2_mul_insub L), Hpp. }
    { intros H0. apply (l2_eqb E L) in H0. congruence. }
    rewrite !Hsw, H. reflexivity.
  - f_equal. destruct H as [H| ->]; [|reflexivity].
    apply (pairing_inj_r L (pp_g2 pp)); auto; try apply Hpp. { rewrite Hg. apply (l2_one_nz E L). }
    rewrite <- !Hsw, H, !(pairing_0_l L); auto.
Qed.

Lemma program_panics : forall (E : env) (L : env_laws E) m (pp : pubparam E) p c q,
  pp_ok pp -> (pp_cs pp = 0 \/ pp_cs pp = 1) -> (pp_depth pp <= 32)%nat -> pp_g2 pp = g2_one ->
  fst (exec m pp c (after m pp p)) = Panic q ->
  q = P_PRNG \/ (q = P_INDEX /\ (c = Aggregate [] \/ exists j msg, c = VerifyAggregated j [] msg)).
Proof.
  intros E L m pp p c q Hpp Hc Hd Hg Hq. destruct (world_simulated E L m pp p Hpp Hc Hd Hg) as (xs & ann & Hw & Hx).
  destruct (Hx c) as [[Hp _]|[_ Ha]]; [left; congruence|]. right. rewrite Hq in Ha.
  destruct (fst (b_exec (pp_depth pp) c (books m pp p))) as [[]|e|q'] eqn:Eb; try contradiction. cbn [agrees] in Ha. subst q'.
  destruct c as [seed|i o|js|j i msg|j ks msg|i k|i k|j|i c]; cbn [b_exec] in Eb.
  - destruct (length seed <? 32)%nat; discriminate.
  - destruct (nth_error _ i) as [t|]; [|discriminate].
    assert (Hn : forall x, fst (b_call (pp_depth pp) i t o) <> Panic x).
    { intros x. destruct o; cbn [b_call]; try (destruct (_ && _)); try (destruct (_ || _)); try (destruct (_ =? _)); discriminate. }
    destruct (b_call (pp_depth pp) i t o) as [[[s|]|e|x] t']; cbn [fst] in *; try discriminate. destruct (Hn x eq_refl).
  - destruct (pick _ js) as [[|s l]|] eqn:Ej; [| |discriminate].
    + cbn [fst] in Eb. split; [congruence|]. left. apply pick_length in Ej. destruct js; [reflexivity|discriminate].
    + destruct (forallb _ l); discriminate.
  - destruct (nth_error _ j); [|discriminate]. destruct (nth_error _ i); discriminate.
  - destruct (nth_error _ j); [|discriminate]. destruct (pick _ ks) as [[|s l]|] eqn:Ej; try discriminate.
    cbn [fst] in Eb. split; [congruence|]. right. apply pick_length in Ej. destruct ks; [eauto|discriminate].
  - destruct (nth_error _ i); [|discriminate]. destruct (nth_error _ k); discriminate.
  - destruct (nth_error _ i); [|discriminate]. destruct (nth_error _ k); discriminate.
  - discriminate.
  - discriminate.
Qed.

(** * A program of two signers *)
Section Two.
Context {E : env} (L : env_laws E) (m : mode) (pp : pubparam E) (Hpp : pp_ok pp) (Hcs : valid_cs (pp_cs pp) = true)
  (Hg2 : pp_g2 pp = g2_one) (Hd : (pp_depth pp <= 32)%nat).

Definition quiet (c : cmd) : bool := match c with KeyGen _ | Call _ (OpSignPresent _ _) | Aggregate _ => true | _ => false end.

Lemma quiet_ok c xs ann b w b' : world_is pp xs ann b w -> quiet c = true -> b_exec (pp_depth pp) c b = (Ok Nothing, b') ->
  exists w' xs' ann', exec m pp c w = (Ok None, w') /\ world_is pp xs' ann' b' w'.
Proof.
  intros H Hq Hb. pose proof (exec_ok L m pp Hpp Hcs Hg2 Hd c xs ann b w H) as Ho. rewrite Hb in Ho. cbn [fst snd] in Ho.
  assert (Hn : fst (exec m pp c w) <> Panic P_PRNG).
  { destruct c as [seed|i o|js| | | | | |]; try discriminate; cbn [exec].
    - destruct (Nat.lt_ge_cases (length seed) 32) as [Hs|Hs]; [rewrite key_gen_short by exact Hs; discriminate|].
      destruct (pp_hlist pp) as [|h0 hs] eqn:Eh; [pose proof (ppo_len pp Hpp) as Hl; rewrite Eh in Hl; cbn in Hl; lia|].
      destruct (key_gen_head L pp seed h0 hs Hs Hcs Eh) as (s0 & -> & _). discriminate.
    - destruct o as [| |t msg| |]; try discriminate. destruct (nth_error (w_party w) i) as [[[pk sk] pop]|] eqn:Ei; [|discriminate].
      destruct (party_key pp xs _ i _ (wi_party _ _ _ _ _ H) Ei) as (_ & _ & Hg & _). cbn [fst snd] in Hg.
      pose proof (sign_present_cases L m pp _ sk t msg Hpp Hcs Hg) as Hc. cbn [step]. unfold sbind, sret.
      destruct (sec_time sk =? t); [destruct Hc as (s & -> & _); discriminate|]. rewrite Hc. discriminate.
    - destruct (pick (w_sigs w) js) as [l|]; [|discriminate]. destruct l as [|s l]; [discriminate|].
      destruct (aggregate_outcomes E s l) as (_ & _ & Hp). destruct (aggregate (s :: l)) as [x|e|q]; try discriminate. destruct (Hp q eq_refl). }
  destruct Ho as [[Ho _]|(_ & Ha & ys & zs & Hw)]; [contradiction|].
  destruct (exec m pp c w) as [r w']. cbn [fst snd agrees] in *. destruct r as [[x|]|e|q]; try contradiction. eauto 6.
Qed.
End Two.

Lemma b_run_ok d c p r rs b b' : b_exec d c b = (Ok Nothing, b') -> b_run d (c :: p) (Ok r :: rs) b = b_run d p rs b'.
Proof. intros H. cbn [b_run]. rewrite H. reflexivity. Qed.
Lemma two_signers : forall (E : env) (L : env_laws E) m (pp : pubparam E) seed1 seed2 msg,
  pp_ok pp -> (pp_cs pp = 0 \/ pp_cs pp = 1) -> (pp_depth pp <= 32)%nat -> pp_g2 pp = g2_one ->
  (32 <= length seed1)%nat -> (32 <= length seed2)%nat ->
  let p := [KeyGen seed1; KeyGen seed2; Call 0 (OpSignPresent 1 msg); Call 1 (OpSignPresent 1 msg); Aggregate [0; 1]%nat] in
  results m pp p = [Ok None; Ok None; Ok None; Ok None; Ok None]
  /\ books m pp p = Book [1; 1] [(1, [(0%nat, msg)]); (1, [(1%nat, msg)]); (1, [(0%nat, msg); (1%nat, msg)])].
Proof.
  intros E L m pp seed1 seed2 msg Hpp Hc Hd Hg H1 H2 p. apply valid_cs_iff in Hc.
  set (b1 := Book [1] []). set (b2 := Book [1; 1] []). set (b3 := Book [1; 1] [(1, [(0%nat, msg)])]).
  set (b4 := Book [1; 1] [(1, [(0%nat, msg)]); (1, [(1%nat, msg)])]).
  set (b5 := Book [1; 1] [(1, [(0%nat, msg)]); (1, [(1%nat, msg)]); (1, [(0%nat, msg); (1%nat, msg)])]).
  assert (B1 : b_exec (pp_depth pp) (KeyGen seed1) (Book [] []) = (Ok Nothing, b1)).
  { cbn [b_exec]. replace (length seed1 <? 32)%nat with false by (symmetry; apply Nat.ltb_ge; lia). reflexivity. }
  assert (B2 : b_exec (pp_depth pp) (KeyGen seed2) b1 = (Ok Nothing, b2)).
  { cbn [b_exec]. replace (length seed2 <? 32)%nat with false by (symmetry; apply Nat.ltb_ge; lia). reflexivity. }
  assert (B3 : b_exec (pp_depth pp) (Call 0 (OpSignPresent 1 msg)) b2 = (Ok Nothing, b3)) by reflexivity.
  assert (B4 : b_exec (pp_depth pp) (Call 1 (OpSignPresent 1 msg)) b3 = (Ok Nothing, b4)) by reflexivity.
  assert (B5 : b_exec (pp_depth pp) (Aggregate [0; 1]%nat) b4 = (Ok Nothing, b5)) by reflexivity.
  destruct (quiet_ok L m pp Hpp Hc Hg Hd (KeyGen seed1) _ _ _ _ _ (start_is pp) eq_refl B1) as (w1 & x1 & a1 & E1 & W1).
  destruct (quiet_ok L m pp Hpp Hc Hg Hd (KeyGen seed2) _ _ _ _ _ W1 eq_refl B2) as (w2 & x2 & a2 & E2 & W2).
  destruct (quiet_ok L m pp Hpp Hc Hg Hd (Call 0 (OpSignPresent 1 msg)) _ _ _ _ _ W2 eq_refl B3) as (w3 & x3 & a3 & E3 & W3).
  destruct (quiet_ok L m pp Hpp Hc Hg Hd (Call 1 (OpSignPresent 1 msg)) _ _ _ _ _ W3 eq_refl B4) as (w4 & x4 & a4 & E4 & W4).
  destruct (quiet_ok L m pp Hpp Hc Hg Hd (Aggregate [0; 1]%nat) _ _ _ _ _ W4 eq_refl B5) as (w5 & x5 & a5 & E5 & W5).
  assert (Hr : results m pp p = [Ok None; Ok None; Ok None; Ok None; Ok None]).
  { unfold results, p. cbn [execs]. rewrite E1, E2, E3, E4, E5. reflexivity. }
  split; [exact Hr|]. unfold books. rewrite Hr. unfold p.
  rewrite (b_run_ok _ _ _ _ _ _ _ B1), (b_run_ok _ _ _ _ _ _ _ B2), (b_run_ok _ _ _ _ _ _ _ B3), (b_run_ok _ _ _ _ _ _ _ B4),
    (b_run_ok _ _ _ _ _ _ _ B5). reflexivity.
Qed.
