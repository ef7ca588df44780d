(** Lemmas behind Properties_Verify.v: verification and aggregation. *)
From Coq Require Import Sorting.Permutation Znumtheory ZArith.
From Verif Require Import Base Env NMod GroupFacts Time SpecTime TimeFacts TimeProps Hkdf Prng SpecPrng PrngFacts
  SubKey SecretKey Keys Sig IO Serdes Api SpecKey SubKeyFacts SpecUpdate UpdateFacts KeyFacts SpecSer IOFacts SerFacts
  HistoryFacts SpecSig KeyProps SigProps Primality.
From Coq Require Import ZifyBool ZifyNat ZifyN.
Local Open Scope N_scope.
Local Arguments N.add : simpl never.
Local Arguments N.mul : simpl never.
Local Arguments N.sub : simpl never.
Local Arguments pow2 : simpl never.
Local Opaque fr_modulus.

(** * Verification as an equation (C25) *)
Lemma verify_equation : forall (E : env) (L : env_laws E) m (pp : pubparam E) s pk msg,
  pp_ok pp -> g2_insub (pk_pk pk) = true ->
  (verify m s pk pp msg = Ok true <->
   (pp_cs pp = 0 \/ pp_cs pp = 1) /\ sig_cs s = pp_cs pp
   /\ g2_insub (sig_1 s) = true /\ g1_insub (sig_2 s) = true
   /\ exists v, node_at (pp_depth pp) (sig_time s) v
      /\ pairing (pp_g2 pp) (sig_2 s)
         = gt_mul (pairing (sig_1 s) (sig_val pp v (msg_scalar pp msg))) (pairing (pk_pk pk) (pp_h pp))).
Proof.
  intros E L m pp s pk msg Hpp Hpk. rewrite <- valid_cs_iff. apply (verify_spec L); auto.
Qed.

Lemma verify_total : forall (E : env) (L : env_laws E) m (pp : pubparam E) s pk msg,
  pp_ok pp -> exists b, verify m s pk pp msg = Ok b.
Proof. intros E L m pp s pk msg Hpp. apply (verify_no_panic L); auto. Qed.

Lemma verify_modes_agree : forall (E : env) (L : env_laws E) (pp : pubparam E) s pk msg,
  pp_ok pp -> g2_insub (pk_pk pk) = true -> verify Debug s pk pp msg = verify Release s pk pp msg.
Proof.
  intros E L pp s pk msg Hpp Hpk.
  destruct (verify_no_panic L Debug pp s pk msg Hpp) as [b1 H1], (verify_no_panic L Release pp s pk msg Hpp) as [b2 H2].
  pose proof (verify_spec L Debug pp s pk msg Hpp Hpk) as S1. pose proof (verify_spec L Release pp s pk msg Hpp Hpk) as S2.
  rewrite <- S1 in S2. rewrite H1, H2 in *. destruct b1, b2; try reflexivity; exfalso.
  - destruct S2 as [_ S2]. specialize (S2 eq_refl). discriminate.
  - destruct S2 as [S2 _]. specialize (S2 eq_refl). discriminate.
Qed.

(** * Uniqueness (C26) *)
Lemma second_component_unique : forall (E : env) (L : env_laws E) m m' (pp : pubparam E) s s' pk msg,
  pp_ok pp -> pp_g2 pp <> g2_zero -> g2_insub (pk_pk pk) = true ->
  verify m s pk pp msg = Ok true -> verify m' s' pk pp msg = Ok true ->
  sig_time s = sig_time s' -> sig_1 s = sig_1 s' -> s = s'.
Proof.
  intros E L m m' pp s s' pk msg Hpp Hnz Hpk H H' Ht H1.
  apply (verify_spec L) in H as (_ & Hc & _ & H2 & v & Hn & He); auto.
  apply (verify_spec L) in H' as (_ & Hc' & _ & H2' & v' & Hn' & He'); auto.
  rewrite Ht in Hn. rewrite (node_at_fun _ _ _ _ Hn Hn') in He. rewrite H1, <- He' in He.
  apply (pairing_inj_r L) in He; auto; [|apply Hpp].
  destruct s, s'. cbn in *. congruence.
Qed.

Lemma accepted_form : forall (E : env) (L : env_laws E) m (pp : pubparam E) s pk msg x,
  pp_ok pp -> pp_g2 pp = g2_one -> pk_pk pk = g2_mul x (pp_g2 pp) ->
  (verify m s pk pp msg = Ok true <->
   (pp_cs pp = 0 \/ pp_cs pp = 1)
   /\ exists v k, node_at (pp_depth pp) (sig_time s) v
                  /\ s = honest_sig pp x (sig_time s) v (msg_scalar pp msg) k).
Proof.
  intros E L m pp s pk msg x Hpp Hg Hpk.
  assert (Hin : g2_insub (pk_pk pk) = true) by (rewrite Hpk; apply (g2_mul_insub L), Hpp).
  split.
  - intros H. apply (verify_spec L) in H as (Hc & Hs & H1 & H2 & v & Hn & He); auto.
    split; [apply valid_cs_iff, Hc|]. destruct (l2_gen E L (sig_1 s) H1) as [k Hk]. rewrite <- Hg in Hk.
    exists v, k. split; [exact Hn|]. rewrite Hk, Hpk, <- (pairing_honest L) in He; try apply Hpp; [|apply (sig_val_insub L), Hpp].
    apply (pairing_inj_r L) in He; auto; try apply Hpp.
    + destruct s as [cs t s1 s2]. cbn [sig_cs sig_time sig_1 sig_2] in *. unfold honest_sig. congruence.
    + apply (l1_sub_add E L); apply (g1_mul_insub L); [apply Hpp|apply (sig_val_insub L), Hpp].
    + rewrite Hg. apply (l2_one_nz E L).
  - intros (Hc & v & k & Hn & ->). destruct pk as [cs p]. cbn [pk_pk] in Hpk. rewrite Hpk.
    apply (verify_honest L); auto. apply valid_cs_iff, Hc.
Qed.

(** * Binding to message and time (C27) *)
Lemma mul_inj {E} (L : env_laws E) (h : G1 E) a b :
  g1_insub h = true -> h <> g1_zero -> a < fr_modulus -> b < fr_modulus -> g1_mul a h = g1_mul b h -> a = b.
Proof.
  assert (Hno : forall a b, g1_insub h = true -> h <> g1_zero -> a < b -> b < fr_modulus -> g1_mul a h = g1_mul b h -> False).
  { clear a b. intros a b Hin Hnz Hlt Hb He.
    replace b with (a + (b - a)) in He by lia. rewrite (l1_mul_add E L) in He.
    rewrite <- (nm_zero_r _ _ _ (nmod_g1 L) (g1_mul a h)) in He at 1.
    apply (g1_cancel L) in He; [|apply (g1_mul_insub L), Hin]. symmetry in He.
    set (n := b - a) in *. assert (Hn : 0 < n < fr_modulus) by lia.
    assert (Hrel : rel_prime (Z.of_N n) (Z.of_N fr_modulus)).
    { apply rel_prime_sym, prime_rel_prime; [exact r_prime|].
      intros Hd. apply Z.divide_pos_le in Hd; [|lia]. lia. }
    apply rel_prime_bezout in Hrel as [u v Huv].
    (* shift u to be non-negative *)
    set (k := (Z.abs u + Z.abs v)%Z).
    assert (Hz : (Z.of_N (Z.to_N (u + k * Z.of_N fr_modulus)) * Z.of_N n
                  = 1 + Z.of_N (Z.to_N (k * Z.of_N n - v)) * Z.of_N fr_modulus)%Z).
    { rewrite !Z2N.id by (unfold k; nia). lia. }
    assert (HN : Z.to_N (u + k * Z.of_N fr_modulus) * n = 1 + Z.to_N (k * Z.of_N n - v) * fr_modulus) by lia.
    assert (HA : g1_mul (Z.to_N (u + k * Z.of_N fr_modulus) * n) h = g1_zero)
      by (rewrite (l1_mul_mul E L), He; apply (nm_mulz _ _ _ (nmod_g1 L))).
    rewrite HN, (l1_mul_add E L), (l1_mul_mul E L), (l1_order E L h Hin), (nm_mulz _ _ _ (nmod_g1 L)),
      (nm_zero_r _ _ _ (nmod_g1 L)), (l1_mul1 E L) in HA.
    contradiction. }
  intros Hin Hnz Ha Hb He. destruct (N.lt_trichotomy a b) as [H|[H|H]]; [|exact H|].
  - exfalso. apply (Hno a b); auto.
  - exfalso. apply (Hno b a); auto.
Qed.

Lemma bound_to_message : forall (E : env) (L : env_laws E) m m' (pp : pubparam E) s pk msg msg',
  pp_ok pp -> g2_insub (pk_pk pk) = true -> sig_1 s <> g2_zero ->
  nth (pp_depth pp) (pp_hlist pp) g1_zero <> g1_zero ->
  verify m s pk pp msg = Ok true -> verify m' s pk pp msg' = Ok true ->
  msg_scalar pp msg = msg_scalar pp msg'.
Proof.
  intros E L m m' pp s pk msg msg' Hpp Hpk Hnz Hh H H'.
  apply (verify_spec L) in H as (_ & _ & H1 & _ & v & Hn & He); auto.
  apply (verify_spec L) in H' as (_ & _ & _ & _ & v' & Hn' & He'); auto.
  rewrite (node_at_fun _ _ _ _ Hn' Hn) in He'. rewrite He in He'.
  rewrite !(lt_comm E L _ (pairing (pk_pk pk) (pp_h pp))) in He'.
  apply (gt_cancel L) in He'; auto; [|apply Hpp].
  apply (pairing_inj_r L) in He'; auto using (sig_val_insub L).
  unfold sig_val in He'. apply (g1_cancel L) in He'; [|apply (node_val_insub L), Hpp].
  apply (mul_inj L) in He'; auto using msg_scalar_lt. apply (Forall_nth_insub L), Hpp.
Qed.

Lemma bound_to_time : forall (E : env) (L : env_laws E) m m' (pp : pubparam E) s pk msg t v v',
  pp_ok pp -> g2_insub (pk_pk pk) = true -> sig_1 s <> g2_zero ->
  verify m s pk pp msg = Ok true ->
  verify m' (Signature (sig_cs s) t (sig_1 s) (sig_2 s)) pk pp msg = Ok true ->
  node_at (pp_depth pp) (sig_time s) v -> node_at (pp_depth pp) t v' ->
  node_val pp v = node_val pp v'.
Proof.
  intros E L m m' pp s pk msg t v v' Hpp Hpk Hnz H H' Hv Hv'.
  apply (verify_spec L) in H as (_ & _ & H1 & _ & w & Hn & He); auto.
  apply (verify_spec L) in H' as (_ & _ & _ & _ & w' & Hn' & He'); auto.
  cbn [sig_cs sig_time sig_1 sig_2] in *.
  rewrite (node_at_fun _ _ _ _ Hn Hv) in He. rewrite (node_at_fun _ _ _ _ Hn' Hv') in He'. rewrite He in He'.
  rewrite !(lt_comm E L _ (pairing (pk_pk pk) (pp_h pp))) in He'.
  apply (gt_cancel L) in He'; auto; [|apply Hpp].
  apply (pairing_inj_r L) in He'; auto using (sig_val_insub L).
  unfold sig_val in He'. rewrite !(l1_comm E L _ (g1_mul _ _)) in He'. apply (g1_cancel L) in He'; [exact He'|].
  apply (g1_mul_insub L), (Forall_nth_insub L), Hpp.
Qed.

(** With the identity as first component the signature only depends on the public key
    part: it verifies for all messages and times, or for none. *)
Lemma identity_unbound : forall (E : env) (L : env_laws E) m (pp : pubparam E) s2 pk msg msg' t t',
  pp_ok pp -> g2_insub (pk_pk pk) = true ->
  1 <= t <= last_time (pp_depth pp) -> 1 <= t' <= last_time (pp_depth pp) ->
  verify m (Signature (pp_cs pp) t g2_zero s2) pk pp msg = Ok true ->
  verify m (Signature (pp_cs pp) t' g2_zero s2) pk pp msg' = Ok true.
Proof.
  intros E L m pp s2 pk msg msg' t t' Hpp Hpk Ht Ht' H.
  apply (verify_spec L) in H as (Hc & _ & H1 & H2 & v & Hn & He); auto. cbn [sig_cs sig_time sig_1 sig_2] in *.
  destruct (node_at_ex _ _ Ht') as [v' Hn'].
  apply (verify_spec L); auto. cbn [sig_cs sig_time sig_1 sig_2]. repeat split; auto. exists v'. split; [exact Hn'|].
  rewrite He, !(pairing_0_l L); auto; apply (sig_val_insub L), Hpp.
Qed.

(** * Ciphersuite of the public key (C28) *)
Lemma verify_ignores_pk_cs : forall (E : env) m (pp : pubparam E) s cs cs' p msg,
  verify m s (PubKey cs p) pp msg = verify m s (PubKey cs' p) pp msg.
Proof. reflexivity. Qed.

Lemma verify_aggregated_checks_cs : forall (E : env) m (pp : pubparam E) s pks pk msg,
  In pk pks -> pk_cs pk <> pp_cs pp -> verify_aggregated m s pks pp msg = Ok false.
Proof.
  intros E m pp s pks pk msg Hin Hne. unfold verify_aggregated.
  destruct (forallb _ pks) eqn:Ef; [|reflexivity]. rewrite forallb_forall in Ef. specialize (Ef _ Hin). lia.
Qed.

(** * Aggregation *)
Definition sum2 {E : env} (l : list (G2 E)) : G2 E := fold_right g2_add g2_zero l.
Definition sum1 {E : env} (l : list (G1 E)) : G1 E := fold_right g1_add g1_zero l.

Lemma agg_check_ok {E} (r : signature E) : forall l,
  agg_check r l = Ok tt <-> Forall (fun e => sig_cs e = sig_cs r /\ sig_time e = sig_time r) l.
Proof.
  induction l as [|e l IH]; cbn [agg_check].
  - split; auto.
  - destruct (N.eqb_spec (sig_cs r) (sig_cs e)) as [H1|H1]; cbn [negb].
    + destruct (N.eqb_spec (sig_time r) (sig_time e)) as [H2|H2]; cbn [negb].
      * rewrite IH. split; intros H; [constructor; auto|inversion H; auto].
      * split; [discriminate|]. intros H. inversion H as [|? ? [Ha Hb] _]; subst. exfalso. apply H2. symmetry. exact Hb.
    + split; [discriminate|]. intros H. inversion H as [|? ? [Ha Hb] _]; subst. exfalso. apply H1. symmetry. exact Ha.
Qed.

Lemma agg_check_cases {E} (r : signature E) l :
  agg_check r l = Ok tt
  \/ (agg_check r l = Err E_CIPHERSUITE /\ exists e, In e l /\ sig_cs e <> sig_cs r)
  \/ (agg_check r l = Err E_TIME_STAMP /\ exists e, In e l /\ sig_time e <> sig_time r).
Proof.
  induction l as [|e l IH]; cbn [agg_check]; [auto|].
  destruct (N.eqb_spec (sig_cs r) (sig_cs e)) as [H1|H1]; cbn [negb].
  - destruct (N.eqb_spec (sig_time r) (sig_time e)) as [H2|H2]; cbn [negb].
    + destruct IH as [->|[[-> (e' & ? & ?)]|[-> (e' & ? & ?)]]]; [auto|right; left|right; right];
        (split; [reflexivity|]); exists e'; split; auto; right; auto.
    + right; right. split; [reflexivity|]. exists e. split; [left; reflexivity|congruence].
  - right; left. split; [reflexivity|]. exists e. split; [left; reflexivity|congruence].
Qed.

Lemma agg_fold {E} (L : env_laws E) : forall l (s : signature E),
  fold_left (fun r e => Signature (sig_cs r) (sig_time r) (g2_add (sig_1 r) (sig_1 e)) (g1_add (sig_2 r) (sig_2 e))) l s
  = Signature (sig_cs s) (sig_time s) (g2_add (sig_1 s) (sum2 (map sig_1 l))) (g1_add (sig_2 s) (sum1 (map sig_2 l))).
Proof.
  induction l as [|e l IH]; intros s; cbn [fold_left map sum1 sum2 fold_right].
  - destruct s. cbn. f_equal; [g2_solve L|g1_solve L].
  - rewrite IH. cbn [sig_cs sig_time sig_1 sig_2]. fold (sum2 (map sig_1 l)). fold (sum1 (map sig_2 l)).
    f_equal; [g2_solve L|g1_solve L].
Qed.

Lemma aggregate_ok {E} (L : env_laws E) (l : list (signature E)) s :
  aggregate l = Ok s <->
  l <> [] /\ Forall (fun e => sig_cs e = sig_cs s /\ sig_time e = sig_time s) l
  /\ sig_1 s = sum2 (map sig_1 l) /\ sig_2 s = sum1 (map sig_2 l).
Proof.
  destruct l as [|a l]; cbn [aggregate].
  - split; [discriminate|]. intros (H & _). contradiction.
  - rewrite (agg_fold L). cbn [map sum1 sum2 fold_right]. fold (sum2 (map sig_1 l)). fold (sum1 (map sig_2 l)).
    split.
    + intros H. destruct (agg_check a l) as [[]| |] eqn:Ec; cbn [bind] in H; try discriminate. injection H as <-.
      cbn [sig_cs sig_time sig_1 sig_2]. apply agg_check_ok in Ec. split; [discriminate|]. split; [constructor; auto|auto].
    + intros (_ & Hf & H1 & H2). inversion Hf as [|? ? [Hc Ht] Hf']; subst.
      replace (agg_check a l) with (@Ok unit tt).
      * cbn [bind]. destruct s. cbn in *. congruence.
      * symmetry. apply agg_check_ok. eapply Forall_impl; [|exact Hf']. cbn. intros e []. split; congruence.
Qed.

(** C23 *)
Lemma aggregate_outcomes : forall (E : env) (s : signature E) l,
  (is_ok (aggregate (s :: l)) = true <-> Forall (fun e => sig_cs e = sig_cs s /\ sig_time e = sig_time s) l)
  /\ (forall e, aggregate (s :: l) = Err e ->
        (e = E_CIPHERSUITE /\ exists a, In a l /\ sig_cs a <> sig_cs s)
        \/ (e = E_TIME_STAMP /\ exists a, In a l /\ sig_time a <> sig_time s))
  /\ (forall p, aggregate (s :: l) <> Panic p).
Proof.
  intros E s l. cbn [aggregate]. rewrite <- agg_check_ok.
  destruct (agg_check_cases s l) as [->|[[-> H]|[-> H]]]; cbn [bind is_ok].
  - split; [tauto|]. split; [discriminate|]. intros p H. discriminate.
  - split; [split; discriminate|]. split; [intros e [= <-]; auto|]. intros p H'. discriminate.
  - split; [split; discriminate|]. split; [intros e [= <-]; auto|]. intros p H'. discriminate.
Qed.

Lemma aggregate_fields : forall (E : env) (L : env_laws E) (l : list (signature E)) s,
  aggregate l = Ok s -> Forall (fun e => sig_cs e = sig_cs s /\ sig_time e = sig_time s) l.
Proof. intros E L l s H. apply (aggregate_ok L) in H. tauto. Qed.

Lemma empty_lists_panic : forall (E : env) m (pp : pubparam E) s msg,
  aggregate (@nil (signature E)) = Panic P_INDEX
  /\ (sig_cs s = pp_cs pp -> verify_aggregated m s [] pp msg = Panic P_INDEX).
Proof.
  intros E m pp s msg. split; [reflexivity|]. intros H. unfold verify_aggregated. cbn [forallb negb].
  rewrite H, N.eqb_refl. reflexivity.
Qed.

Lemma verify_aggregated_checks_sig_cs : forall (E : env) m (pp : pubparam E) s pks msg,
  sig_cs s <> pp_cs pp -> verify_aggregated m s pks pp msg = Ok false.
Proof.
  intros E m pp s pks msg H. unfold verify_aggregated. destruct (negb (forallb _ _)); [reflexivity|].
  replace (sig_cs s =? pp_cs pp) with false by lia. reflexivity.
Qed.

(** C24 *)
Lemma sum2_perm {E} (L : env_laws E) (l l' : list (G2 E)) : Permutation l l' -> sum2 l = sum2 l'.
Proof.
  induction 1; cbn [sum2 fold_right]; try reflexivity.
  - unfold sum2 in IHPermutation. rewrite IHPermutation. reflexivity.
  - fold (sum2 l). g2_solve L.
  - congruence.
Qed.
Lemma sum1_perm {E} (L : env_laws E) (l l' : list (G1 E)) : Permutation l l' -> sum1 l = sum1 l'.
Proof.
  induction 1; cbn [sum1 fold_right]; try reflexivity.
  - unfold sum1 in IHPermutation. rewrite IHPermutation. reflexivity.
  - fold (sum1 l). g1_solve L.
  - congruence.
Qed.
Lemma sum2_app {E} (L : env_laws E) (l l' : list (G2 E)) : sum2 (l ++ l') = g2_add (sum2 l) (sum2 l').
Proof. induction l as [|a l IH]; cbn [app sum2 fold_right]; [fold (sum2 l'); g2_solve L|]. unfold sum2 in IH. rewrite IH. fold (sum2 l) (sum2 l'). g2_solve L. Qed.
Lemma sum1_app {E} (L : env_laws E) (l l' : list (G1 E)) : sum1 (l ++ l') = g1_add (sum1 l) (sum1 l').
Proof. induction l as [|a l IH]; cbn [app sum1 fold_right]; [fold (sum1 l'); g1_solve L|]. unfold sum1 in IH. rewrite IH. fold (sum1 l) (sum1 l'). g1_solve L. Qed.

Lemma aggregate_order_independent : forall (E : env) (L : env_laws E) (l l' : list (signature E)) s,
  Permutation l l' -> (aggregate l = Ok s <-> aggregate l' = Ok s).
Proof.
  intros E L. assert (H : forall (l l' : list (signature E)) s, Permutation l l' -> aggregate l = Ok s -> aggregate l' = Ok s).
  { intros l l' s Hp H. apply (aggregate_ok L) in H as (Hn & Hf & H1 & H2). apply (aggregate_ok L).
    split. { intros ->. apply Permutation_sym, Permutation_nil in Hp. contradiction. }
    split; [eapply Permutation_Forall; eauto|].
    rewrite H1, H2. split; [apply (sum2_perm L)|apply (sum1_perm L)]; apply Permutation_map, Hp. }
  intros l l' s Hp. split; apply H; [exact Hp|apply Permutation_sym, Hp].
Qed.

Lemma agg_pk_fold {E} (L : env_laws E) : forall (l : list (pubkey E)) a,
  fold_left (fun a e => g2_add a (pk_pk e)) l a = g2_add a (sum2 (map pk_pk l)).
Proof.
  induction l as [|e l IH]; intros a; cbn [fold_left map sum2 fold_right]; [g2_solve L|].
  rewrite IH. fold (sum2 (map pk_pk l)). g2_solve L.
Qed.

Lemma verify_aggregated_sum {E} (L : env_laws E) m (pp : pubparam E) s pks msg :
  pks <> [] ->
  verify_aggregated m s pks pp msg
  = if negb (forallb (fun e => pp_cs pp =? pk_cs e) pks) then Ok false
    else verify m s (PubKey (pp_cs pp) (sum2 (map pk_pk pks))) pp msg.
Proof.
  intros Hne. unfold verify_aggregated. destruct (negb (forallb _ _)); [reflexivity|].
  destruct pks as [|k pks]; [contradiction|]. rewrite (agg_pk_fold L).
  unfold verify. destruct (sig_cs s =? pp_cs pp); cbn [negb]; [reflexivity|]. destruct (negb (valid_cs _)); reflexivity.
Qed.

Lemma forallb_perm {A} (f : A -> bool) l l' : Permutation l l' -> forallb f l = forallb f l'.
Proof.
  induction 1; cbn [forallb]; try congruence. rewrite !andb_assoc, (andb_comm (f x)). reflexivity.
Qed.

Lemma verify_aggregated_order_independent : forall (E : env) (L : env_laws E) m (pp : pubparam E) s pks pks' msg,
  Permutation pks pks' -> verify_aggregated m s pks pp msg = verify_aggregated m s pks' pp msg.
Proof.
  intros E L m pp s pks pks' msg Hp. destruct pks as [|k pks].
  - apply Permutation_nil in Hp. subst. reflexivity.
  - rewrite !(verify_aggregated_sum L); [| |discriminate].
    + rewrite (forallb_perm _ _ _ Hp). rewrite (sum2_perm L _ _ (Permutation_map pk_pk Hp)). reflexivity.
    + intros ->. apply Permutation_sym, Permutation_nil in Hp. discriminate.
Qed.

Lemma aggregate_of_aggregates : forall (E : env) (L : env_laws E) (ls : list (list (signature E))) aggs s,
  Forall2 (fun l a => aggregate l = Ok a) ls aggs ->
  (aggregate aggs = Ok s <-> aggregate (concat ls) = Ok s).
Proof.
  intros E L ls aggs s Hls. rewrite !(aggregate_ok L).
  assert (H1 : sum2 (map sig_1 aggs) = sum2 (map sig_1 (concat ls))).
  { induction Hls as [|l a ls aggs Ha _ IH]; [reflexivity|]. cbn [concat]. rewrite map_app, (sum2_app L), <- IH.
    apply (aggregate_ok L) in Ha as (_ & _ & <- & _). reflexivity. }
  assert (H2 : sum1 (map sig_2 aggs) = sum1 (map sig_2 (concat ls))).
  { clear H1. induction Hls as [|l a ls aggs Ha _ IH]; [reflexivity|]. cbn [concat]. rewrite map_app, (sum1_app L), <- IH.
    apply (aggregate_ok L) in Ha as (_ & _ & _ & <-). reflexivity. }
  rewrite H1, H2.
  assert (Hf : Forall (fun e => sig_cs e = sig_cs s /\ sig_time e = sig_time s) aggs
               <-> Forall (fun e => sig_cs e = sig_cs s /\ sig_time e = sig_time s) (concat ls)).
  { clear H1 H2. induction Hls as [|l a ls aggs Ha _ IH]; [split; constructor|]. cbn [concat]. rewrite Forall_app, <- IH.
    apply (aggregate_ok L) in Ha as (Hne & Hf & _ & _). split; intros H.
    - inversion H as [|? ? [Hc Ht] Hr]; subst. split; [|exact Hr]. eapply Forall_impl; [|exact Hf]. cbn. intros e []. split; congruence.
    - destruct H as [Hl Hr]. constructor; [|exact Hr]. destruct l as [|e l]; [contradiction|].
      inversion Hl as [|? ? [] _]; inversion Hf as [|? ? [] _]; subst. split; congruence. }
  assert (Hne : aggs <> [] <-> concat ls <> []).
  { destruct Hls as [|l a ls aggs Ha _]; [tauto|]. split; intros _; [|discriminate]. cbn [concat].
    apply (aggregate_ok L) in Ha as (Hne & _). destruct l; [contradiction|discriminate]. }
  tauto.
Qed.

(** C22 *)
Lemma aggregate_verifies : forall (E : env) (L : env_laws E) m m' (pp : pubparam E) (l : list (signature E * pubkey E)) t msg,
  pp_ok pp -> l <> [] ->
  Forall (fun sp => verify m (fst sp) (snd sp) pp msg = Ok true /\ sig_time (fst sp) = t
                    /\ pk_cs (snd sp) = pp_cs pp /\ g2_insub (pk_pk (snd sp)) = true) l ->
  exists s, aggregate (map fst l) = Ok s /\ verify_aggregated m' s (map snd l) pp msg = Ok true.
Proof.
  intros E L m m' pp l t msg Hpp Hne Hf.
  exists (Signature (pp_cs pp) t (sum2 (map sig_1 (map fst l))) (sum1 (map sig_2 (map fst l)))). split.
  - apply (aggregate_ok L). cbn [sig_cs sig_time sig_1 sig_2]. split; [destruct l; [contradiction|discriminate]|].
    split; [|auto]. apply Forall_map. eapply Forall_impl; [|exact Hf]. cbn. intros [s pk] (Hv & Ht & _ & Hin).
    cbn [fst snd] in *. apply (verify_spec L) in Hv as (_ & Hc & _); auto.
  - rewrite (verify_aggregated_sum L) by (destruct l; [contradiction|discriminate]).
    replace (forallb _ (map snd l)) with true.
    2:{ symmetry. apply forallb_forall. intros k Hk. apply in_map_iff in Hk as (sp & <- & Hin).
        rewrite Forall_forall in Hf. destruct (Hf sp Hin) as (_ & _ & Hc & _). lia. }
    cbn [negb].
    assert (Hex : exists v, node_at (pp_depth pp) t v /\ valid_cs (pp_cs pp) = true).
    { destruct l as [|[s pk] l]; [contradiction|]. inversion Hf as [|? ? (Hv & Ht & _ & Hin) _]; subst. cbn [fst snd] in *.
      apply (verify_spec L) in Hv as (Hc & _ & _ & _ & v & Hn & _); eauto. }
    destruct Hex as (v & Hn & Hcs).
    assert (Hsum : forall l, Forall (fun sp => verify m (fst sp) (snd sp) pp msg = Ok true /\ sig_time (fst sp) = t
                    /\ pk_cs (snd sp) = pp_cs pp /\ g2_insub (pk_pk (snd sp)) = true) l ->
      g2_insub (sum2 (map sig_1 (map fst l))) = true /\ g1_insub (sum1 (map sig_2 (map fst l))) = true
      /\ g2_insub (sum2 (map pk_pk (map snd l))) = true
      /\ pairing (pp_g2 pp) (sum1 (map sig_2 (map fst l)))
         = gt_mul (pairing (sum2 (map sig_1 (map fst l))) (sig_val pp v (msg_scalar pp msg)))
                  (pairing (sum2 (map pk_pk (map snd l))) (pp_h pp))).
    { clear -L Hpp Hn. induction 1 as [|[s pk] l (Hv & Ht & _ & Hin) _ (IH1 & IH2 & IH3 & IH4)];
        cbn [map sum1 sum2 fold_right fst snd].
      - rewrite (pairing_0_r L) by apply Hpp. rewrite !(pairing_0_l L); try apply Hpp; try apply (sig_val_insub L), Hpp.
        rewrite (lt_one E L). auto using (l1_sub0 E L), (l2_sub0 E L).
      - cbn [fst snd] in *. apply (verify_spec L) in Hv as (_ & _ & H1 & H2 & v' & Hn' & He); auto.
        rewrite Ht in Hn'. rewrite (node_at_fun _ _ _ _ Hn' Hn) in He.
        fold (sum2 (map sig_1 (map fst l))) (sum1 (map sig_2 (map fst l))) (sum2 (map pk_pk (map snd l))).
        split; [apply (l2_sub_add E L); auto|]. split; [apply (l1_sub_add E L); auto|]. split; [apply (l2_sub_add E L); auto|].
        rewrite (lp_add_r E L), !(lp_add_l E L); auto; try apply Hpp; try apply (sig_val_insub L), Hpp.
        rewrite He, IH4. rewrite !(lt_assoc E L). f_equal. rewrite <- !(lt_assoc E L). f_equal. apply (lt_comm E L). }
    destruct (Hsum l Hf) as (H1 & H2 & H3 & H4).
    apply (verify_spec L); auto. cbn [sig_cs sig_time sig_1 sig_2 pk_pk]. repeat split; auto. exists v. auto.
Qed.

(** * The identity as public key (C56) *)
Lemma identity_key_accepts : forall (E : env) (L : env_laws E) m (pp : pubparam E) cs t msg,
  pp_ok pp -> (pp_cs pp = 0 \/ pp_cs pp = 1) -> 1 <= t <= last_time (pp_depth pp) ->
  verify m (Signature (pp_cs pp) t g2_zero g1_zero) (PubKey cs g2_zero) pp msg = Ok true.
Proof.
  intros E L m pp cs t msg Hpp Hc Ht. destruct (node_at_ex _ _ Ht) as [v Hn].
  apply (verify_spec L); cbn [pk_pk sig_cs sig_time sig_1 sig_2]; auto using (l1_sub0 E L), (l2_sub0 E L).
  split; [apply valid_cs_iff, Hc|]. repeat split; auto using (l1_sub0 E L), (l2_sub0 E L). exists v. split; [exact Hn|].
  rewrite (pairing_0_r L), !(pairing_0_l L), (lt_one E L); try apply Hpp; auto. apply (sig_val_insub L), Hpp.
Qed.

(** ... and no other public key accepts that signature. *)
Lemma identity_signature_only : forall (E : env) (L : env_laws E) m (pp : pubparam E) pk t msg,
  pp_ok pp -> g2_insub (pk_pk pk) = true -> pp_h pp <> g1_zero ->
  verify m (Signature (pp_cs pp) t g2_zero g1_zero) pk pp msg = Ok true -> pk_pk pk = g2_zero.
Proof.
  intros E L m pp pk t msg Hpp Hpk Hh H.
  apply (verify_spec L) in H as (_ & _ & _ & _ & v & Hn & He); auto. cbn [sig_1 sig_2] in He.
  rewrite (pairing_0_r L), (pairing_0_l L), (lt_one E L) in He; try apply Hpp; [|apply (sig_val_insub L), Hpp].
  symmetry in He. apply (lp_nondeg E L) in He as [He|He]; auto; [contradiction|apply Hpp].
Qed.

(** * The value of a signature (C57) *)
Lemma signature_value : forall (E : env) (L : env_laws E) m m' (pp : pubparam E) pk sk msg,
  pp_ok pp -> reachable m pp pk sk ->
  exists x v r rest, pk = PubKey (pp_cs pp) (g2_mul x (pp_g2 pp)) /\ node_at (pp_depth pp) (sec_time sk) v
    /\ sec_ssk sk = honest_ssk pp x (sec_time sk) v r :: rest
    /\ sign_present m' (sec_time sk) pp msg sk
       = (Ok (honest_sig pp x (sec_time sk) v (msg_scalar pp msg)
                (r + spec_scalar (sha512 E) (sec_prng sk) (sign_info msg (sec_time sk)))), sk).
Proof.
  intros E L m m' pp pk sk msg Hpp Hr. destruct (reachable_good L m pp pk sk Hpp Hr) as (x & _ & Hpk & Hg & Hcs).
  destruct (sign_bytes_good L m' pp x sk msg Hpp Hcs Hg) as (v & r & Hn & (rest & Hs) & Hsig).
  exists x, v, r, rest. split; [exact Hpk|]. split; [exact Hn|]. split; [exact Hs|].
  unfold sign_present, sbind, sget, slift. rewrite N.eqb_refl. cbn [negb]. rewrite Hsig. reflexivity.
Qed.
