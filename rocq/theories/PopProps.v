(** Lemmas behind Properties_Pop.v. *)
From Coq Require Import ConstructiveEpsilon.
From Coq Require Import ZArith ZifyBool ZifyN ZifyNat.
From Verif Require Import Base Env NMod GroupFacts SpecTime Time TimeFacts Prng SpecPrng PrngFacts SubKey SecretKey Keys Sig SpecKey SpecUpdate SpecAgg
  SpecRed SpecMulti SpecRom SpecPop KeyProps SubKeyFacts VerProps AggProps LinProps RedProps MultiProps RomProps.
Local Open Scope N_scope.

Lemma with_points_laws : forall (E : env) (L : env_laws E) Q,
  (forall msg cs, g1_insub (Q msg cs) = true) -> env_laws (with_points E Q).
Proof.
  intros E L Q HQ. pose proof L as L'. destruct L. constructor; try assumption.
  - intros x msg cs. cbn [bls_verify bls_sign with_points g2_mul g2_one].
    rewrite (g2_mul_insub L' x _ l2_one_sub), (g1_mul_insub L' x _ (HQ msg cs)). cbn [andb].
    apply lt_eqb. symmetry. apply (pairing_mul_swap L'); [exact l2_one_sub|apply HQ].
  - intros x msg cs. apply (g1_mul_insub L'), HQ.
Qed.

(** An accepted proof is the hash times the secret. *)
Lemma proved_parts {E} (tbl : list bytes) (pts : list (G1 E)) k p : proved tbl pts (k, p) = true ->
  valid_cs (pk_cs k) = true /\ pk_cs k = pop_cs p /\ g2_insub (pk_pk k) = true /\ g1_insub (pop_pop p) = true
  /\ gt_eqb (pairing g2_one (pop_pop p)) (pairing (pk_pk k) (points tbl pts (pop_msg (pk_pk k)) [pk_cs k])) = true.
Proof.
  unfold proved, pk_validate. cbn [pt_pk pt_pop fst snd pk_cs pk_pk pop_cs pop_pop bls_verify with_points].
  destruct (valid_cs (pk_cs k)); [|discriminate]. cbn [negb]. destruct (pk_cs k =? pop_cs p) eqn:Q; [|discriminate]. cbn [negb].
  intros H. apply andb_true_iff in H as [H H3]. apply andb_true_iff in H as [H1 H2]. apply N.eqb_eq in Q. auto 6.
Qed.
Lemma proved_value : forall (E : env) (L : env_laws E) tbl (pts : list (G1 E)) k p x,
  Forall (fun a => g1_insub a = true) pts -> pk_pk k = g2_mul x g2_one ->
  (proved tbl pts (k, p) = true <->
   (pk_cs k = 0 \/ pk_cs k = 1) /\ pop_cs p = pk_cs k /\ pop_pop p = g1_mul x (points tbl pts (pop_msg (pk_pk k)) [pk_cs k])).
Proof.
  intros E L tbl pts k p x Hpts Hk.
  assert (Hq : g1_insub (points tbl pts (pop_msg (pk_pk k)) [pk_cs k]) = true).
  { unfold points. destruct (nth_in_or_default (position tbl (point_input (pop_msg (pk_pk k)) [pk_cs k])) pts g1_zero) as [H| ->]; [rewrite Forall_forall in Hpts; exact (Hpts _ H)|apply (l1_sub0 E L)]. }
  split.
  - intros H. apply proved_parts in H as (H1 & H2 & H3 & H4 & H5). apply valid_cs_iff in H1. split; [exact H1|]. split; [congruence|].
    apply (lt_eqb E L) in H5. set (hp := points tbl pts _ _) in *. clearbody hp. rewrite Hk, (pairing_mul_swap L) in H5 by (try apply (l2_one_sub E L); assumption).
    apply (pairing_inj_r L g2_one); [apply (l2_one_sub E L)|exact H4|apply (g1_mul_insub L), Hq|apply (l2_one_nz E L)|exact H5].
  - intros (H1 & H2 & H3). apply valid_cs_iff in H1. unfold proved, pk_validate. cbn [pt_pk pt_pop fst snd pk_cs pk_pk pop_cs pop_pop bls_verify with_points].
    rewrite H1, H2, N.eqb_refl. cbn [negb]. change (@pop_msg (with_points E (points tbl pts)) (pk_pk k)) with (@pop_msg E (pk_pk k)).
    set (hp := points tbl pts _ _) in *. clearbody hp. rewrite H3, Hk.
    rewrite (g2_mul_insub L x _ (l2_one_sub E L)), (g1_mul_insub L x _ Hq). cbn [andb]. apply (lt_eqb E L). symmetry. apply (pairing_mul_swap L); [apply (l2_one_sub E L)|exact Hq].
Qed.

(** Discrete logarithms exist as a function. *)
Lemma dlog_exists {E} (L : env_laws E) : exists dl : G2 E -> N, forall k, g2_insub k = true -> k = g2_mul (dl k) g2_one.
Proof.
  assert (Hd : forall k : G2 E, g2_insub k = true -> {n : nat | k = g2_mul (N.of_nat n) g2_one}).
  { intros k Hk. apply constructive_indefinite_ground_description_nat.
    - intros n. destruct (g2_eqb k (g2_mul (N.of_nat n) g2_one)) eqn:Q; [left; apply (l2_eqb E L), Q|right].
      intros H. apply (l2_eqb E L) in H. congruence.
    - destruct (l2_gen E L k Hk) as [n Hn]. exists (N.to_nat n). rewrite N2Nat.id. exact Hn. }
  exists (fun k => match Bool.bool_dec (g2_insub k) true with left H => N.of_nat (proj1_sig (Hd k H)) | right _ => 0 end).
  intros k Hk. destruct (Bool.bool_dec (g2_insub k) true) as [H|H]; [exact (proj2_sig (Hd k H))|congruence].
Qed.

(** Inputs. *)
Lemma pop_input_inj {E} (L : env_laws E) (k k' : pubkey E) : g2_insub (pk_pk k) = true -> g2_insub (pk_pk k') = true ->
  pop_input k = pop_input k' -> k = k'.
Proof.
  intros H1 H2 H. unfold pop_input, point_input, pop_msg in H. cbn [length app] in H. injection H as Hc H.
  apply (f_equal (@g2_dec E true)) in H. rewrite !(lc2_rt E L) in H by assumption. injection H as H. destruct k as [c1 k1], k' as [c2 k2]. cbn [pk_cs pk_pk] in *. congruence.
Qed.
Lemma pk_eqb_eq {E} (L : env_laws E) (k k' : pubkey E) : pk_eqb k k' = true <-> k = k'.
Proof.
  unfold pk_eqb. rewrite andb_true_iff, N.eqb_eq, (l2_eqb E L). destruct k as [c1 k1], k' as [c2 k2]. cbn [pk_cs pk_pk]. split; [intros [-> ->]; reflexivity|intros H; injection H; auto].
Qed.
Lemma enter_all_app {E} : forall (l : list (pubkey E * proof E)) tbl, exists e, enter_all tbl l = tbl ++ e.
Proof.
  induction l as [|kp l IH]; intros tbl; [exists []; symmetry; apply app_nil_r|]. unfold enter_all. cbn [fold_left]. fold (enter_all (enter tbl (pop_input (fst kp))) l).
  destruct (IH (enter tbl (pop_input (fst kp)))) as [e ->]. destruct (enter_app tbl (pop_input (fst kp))) as [e' ->]. exists (e' ++ e). symmetry. apply app_assoc.
Qed.
Lemma enter_all_in {E} : forall (l : list (pubkey E * proof E)) tbl kp, In kp l -> In (pop_input (fst kp)) (enter_all tbl l).
Proof.
  induction l as [|kp0 l IH]; intros tbl kp Hin; [destruct Hin|]. unfold enter_all. cbn [fold_left]. fold (enter_all (enter tbl (pop_input (fst kp0))) l).
  destruct Hin as [->|Hin]; [|exact (IH _ _ Hin)].
  destruct (enter_all_app l (enter tbl (pop_input (fst kp)))) as [e ->]. apply in_or_app. left. apply enter_in.
Qed.

(** The others' part. *)
Definition dlist {E} (dl : G2 E -> N) (pk : pubkey E) (l : list (pubkey E * proof E)) : list (option N) :=
  map (fun kp => if pk_eqb (fst kp) pk then None else Some (dl (pk_pk (fst kp)))) l.
Lemma occurs_occurrences {E} dl (pk : pubkey E) l : occurrences (dlist dl pk l) = occurs pk l.
Proof. induction l as [|kp l IH]; [reflexivity|]. cbn [dlist map occurrences fold_right occurs]. fold (dlist dl pk l) (occurrences (dlist dl pk l)) (occurs pk l). rewrite IH. destruct (pk_eqb _ _); reflexivity. Qed.
Lemma sim_points_insub {E} (L : env_laws E) (g h : G1 E) rho : g1_insub g = true -> g1_insub h = true -> Forall (fun a => g1_insub a = true) (sim_points g h rho).
Proof.
  intros Hg Hh. destruct rho as [|e rho]; [constructor|]. cbn [sim_points]. constructor; [apply (g1_mul_insub L), Hg|]. apply Forall_map, Forall_forall. intros x _. apply (g1_mul_insub L), Hh.
Qed.
Lemma sim_points_length {E} (g h : G1 E) rho : length (sim_points g h rho) = length rho.
Proof. destruct rho; cbn [sim_points length]; [reflexivity|]. rewrite map_length. reflexivity. Qed.
Lemma sim_points_nth {E} (L : env_laws E) (g h : G1 E) rho i : nth (S i) (sim_points g h rho) g1_zero = g1_mul (nth (S i) rho 0) h.
Proof.
  destruct rho as [|e rho]; [cbn; symmetry; apply (l1_mul0 E L)|]. cbn [sim_points nth].
  rewrite <- (l1_mul0 E L h). exact (map_nth (fun e => g1_mul e h) rho 0 i).
Qed.
Lemma others_known {E} (L : env_laws E) dl (g h : G1 E) pk e rho : (forall k, g2_insub k = true -> k = g2_mul (dl k) g2_one) ->
  g1_insub g = true -> g1_insub h = true -> g2_insub (pk_pk pk) = true ->
  (length (pop_input pk :: e) <= length rho)%nat -> Forall (fun a => 0 < a < fr_modulus) rho ->
  forall l, Forall (fun kp => In (pop_input (fst kp)) (pop_input pk :: e)) l ->
  forallb (proved (pop_input pk :: e) (sim_points g h rho)) l = true ->
  others pk (pop_input pk :: e) rho l = g1_mul (known (dlist dl pk l)) h.
Proof.
  intros Hdl Hg Hh Hpk Hlen Hrho. set (tbl := pop_input pk :: e) in *. induction l as [|[k p] l IH]; intros Hin Hp; [symmetry; apply (l1_mul0 E L)|].
  cbn [forallb] in Hp. apply andb_true_iff in Hp as [Hp Hl]. inversion Hin as [|? ? Hi Hin']; subst. specialize (IH Hin' Hl).
  cbn [others dlist map known fold_right fst snd]. cbn [fst] in Hi. fold (dlist dl pk l) (known (dlist dl pk l)) (others pk tbl rho l). rewrite IH.
  destruct (pk_eqb k pk) eqn:Q; [reflexivity|].
  pose proof (proved_parts _ _ _ _ Hp) as (_ & _ & Hk & _ & _).
  pose proof (proj1 (proved_value E L tbl (sim_points g h rho) k p (dl (pk_pk k)) (sim_points_insub L g h rho Hg Hh) (Hdl _ Hk)) Hp) as (_ & _ & Hv).
  assert (Hne : pop_input pk <> pop_input k).
  { intros He. apply (pop_input_inj L) in He; [|assumption|assumption]. subst k. rewrite (proj2 (pk_eqb_eq L pk pk) eq_refl) in Q. discriminate Q. }
  assert (Hpos : exists i, position tbl (pop_input k) = S i /\ (S i < length rho)%nat).
  { apply position_in in Hi. unfold tbl in *. cbn [position] in *. destruct (bytes_eqb (pop_input pk) (pop_input k)) eqn:B; [apply bytes_eqb_eq in B; contradiction|].
    eexists. split; [reflexivity|]. lia. }
  destruct Hpos as (i & Hpos & Hi'). rewrite Hpos. rewrite Hv. unfold points. fold (pop_input k). rewrite Hpos, (sim_points_nth L).
  set (c := nth (S i) rho 0). assert (Hc : 0 < c < fr_modulus) by (rewrite Forall_forall in Hrho; apply Hrho, nth_In, Hi').
  rewrite <- !(l1_mul_mul E L), <- (l1_mul_add E L). apply (cong_mul L); [exact Hh|].
  destruct (fr_inv_ok c) as [q1 H1]; [rewrite N.mod_small by lia; lia|].
  exists (q1 * Z.of_N (dl (pk_pk k)))%Z. rewrite !N2Z.inj_add, !N2Z.inj_mul.
  revert H1. generalize (Z.of_N (fr_inv c)) (Z.of_N c) (Z.of_N (dl (pk_pk k))) (Z.of_N (known (dlist dl pk l))). clear. intros u v w x H.
  replace (u * w * v + x - (x + w))%Z with ((u * v - 1) * w)%Z by ring. rewrite H. ring.
Qed.
Lemma pisolate_isolate {E} (L : env_laws E) dl (pp : pubparam E) pk tbl rho l s : g1_insub (pp_h pp) = true ->
  others pk tbl rho l = g1_mul (known (dlist dl pk l)) (pp_h pp) -> pisolate pk tbl rho l s = isolate pp (dlist dl pk l) s.
Proof.
  intros Hh Ho. unfold pisolate, isolate. rewrite occurs_occurrences, Ho. do 3 f_equal. rewrite <- (l1_mul_mul E L). apply (cong_mul L); [exact Hh|].
  destruct (minus_ok 1) as [q1 H1]. destruct (minus_ok (known (dlist dl pk l))) as [q2 H2].
  exists (q1 * Z.of_N (known (dlist dl pk l)) - q2)%Z. rewrite N2Z.inj_mul, H1, H2. change (Z.of_N 1) with 1%Z. ring.
Qed.

(** The part of the signer under attack, taken out with the proofs of the others. *)
Lemma proofs_isolate : forall (E : env) (L : env_laws E) m m' (pp : pubparam E) g pk x e rho l (s : signature E) msg,
  pp_ok pp -> pp_g2 pp = g2_one -> pk = PubKey (pp_cs pp) (g2_mul x g2_one) -> g1_insub g = true ->
  (length (pop_input pk :: e) <= length rho)%nat -> Forall (fun a => 0 < a < fr_modulus) rho ->
  Forall (fun kp => In (pop_input (fst kp)) (pop_input pk :: e)) l ->
  forallb (proved (pop_input pk :: e) (sim_points g (pp_h pp) rho)) l = true ->
  In pk (map fst l) -> N.of_nat (length l) < fr_modulus ->
  verify_aggregated m s (map fst l) pp msg = Ok true ->
  verify m' (pisolate pk (pop_input pk :: e) rho l s) pk pp msg = Ok true.
Proof.
  intros E L m m' pp g pk x e rho l s msg Hpp Hg2 Hpk Hg Hlen Hrho Hin Hp Hpkin Hll Hv.
  destruct (dlog_exists L) as [dl Hdl].
  assert (Hpks : g2_insub (pk_pk pk) = true) by (rewrite Hpk; apply (g2_mul_insub L), (l2_one_sub E L)).
  pose proof (others_known L dl g (pp_h pp) pk e rho Hdl Hg (ppo_h pp Hpp) Hpks Hlen Hrho l Hin Hp) as Ho.
  rewrite (pisolate_isolate L dl pp pk _ rho l s (ppo_h pp Hpp) Ho).
  rewrite <- Hg2 in Hpk.
  apply (aggregate_isolated E L m m' pp pk x (dlist dl pk l) s msg Hpp Hg2 Hpk).
  - apply in_map_iff in Hpkin as ((k & p) & <- & Hk). unfold dlist. apply in_map_iff. exists (k, p). cbn [fst]. rewrite (proj2 (pk_eqb_eq L k k) eq_refl). auto.
  - unfold dlist. rewrite map_length. exact Hll.
  - assert (Hcs : forallb (fun k => pp_cs pp =? pk_cs k) (map fst l) = true).
    { unfold verify_aggregated in Hv. destruct (forallb _ (map fst l)); [reflexivity|discriminate Hv]. }
    rewrite <- Hv. f_equal. unfold dlist, signers. rewrite map_map. apply map_ext_in. intros [k p] Hk. cbn [fst].
    destruct (pk_eqb k pk) eqn:Q; [symmetry; apply (pk_eqb_eq L), Q|].
    rewrite forallb_forall in Hp. specialize (Hp _ Hk). apply proved_parts in Hp as (_ & _ & Hs & _ & _).
    rewrite forallb_forall in Hcs. specialize (Hcs k (in_map fst _ _ Hk)). apply N.eqb_eq in Hcs.
    rewrite Hg2, <- (Hdl _ Hs), Hcs. destruct k; reflexivity.
Qed.

(** C98 for a family of forgers. *)
Lemma family_solves {S : Type} (OK : S -> Prop) : forall (E : env) (L : env_laws E) m (g : G1 E) d cs a b (adv : S -> pubparam E -> pubkey E -> hforger E) n q ws,
  g1_insub g = true -> (1 <= d < 64)%nat -> (1 <= q)%nat ->
  NoDup ws -> Forall (fun z => hcoins_ok d n q (fst z) /\ OK (snd z) /\ hwins m g d cs a (adv (snd z)) (fst z)) ws ->
  exists tx i zs, 1 <= tx <= last_time d /\ (i < q)%nat
    /\ N.of_nat (length ws) <= last_time d * N.of_nat q * N.of_nat (length zs) /\ NoDup zs
    /\ Forall (fun z => hcoins_ok d n q (fst z) /\ OK (snd z) /\ hsolve (challenge_for g d a b) d cs tx i (adv (snd z)) (fst z) = Some (solution g d a b)) zs.
Proof.
  intros E L m g d cs a b adv n q ws Hg Hd Hq Hn Hf.
  assert (Hlast : 1 <= last_time d).
  { unfold last_time, pow2. assert (2 ^ 1 <= 2 ^ N.of_nat d) by (apply N.pow_le_mono_r; lia). change (2 ^ 1) with 2 in H. lia. }
  set (txof := fun t : nat => N.of_nat ((t - 1) / q + 1)). set (iof := fun t : nat => ((t - 1) mod q)%nat).
  set (P := fun (t : nat) (z : hcoins * S) => hcoins_ok d n q (fst z) /\ OK (snd z)
     /\ let '(y, ys, rs, hs, u) := z in @wins (with_hash E (answer cs hs)) m g d cs a (txof t) (number (iof t)) (one_signer (relabelled cs hs (adv u))) (y, ys, rs)).
  destruct (pigeons P (N.to_nat (last_time d) * q) ws ltac:(nia) Hn) as (t & us & Ht & Hl & Nu & Fu & _).
  { eapply Forall_impl; [|exact Hf]. intros [[[[y ys] rs] hs] u] (Hz & Hu & Hw). cbn [fst snd] in *.
    destruct (hwins_mwins m g d cs a (adv u) n q y ys rs hs Hz Hw) as (i & Hi & Hmw). pose proof Hz as (Hc & _ & Hhs & _).
    destruct (mwins_wins (answer_laws L cs hs Hhs) m g d cs a (number i) (relabelled cs hs (adv u)) n (y, ys, rs) Hg Hd Hc Hmw) as (tx & Htx & Hw').
    exists ((N.to_nat tx - 1) * q + i + 1)%nat. split; [nia|]. split; [exact Hz|]. split; [exact Hu|].
    assert (E1 : txof ((N.to_nat tx - 1) * q + i + 1)%nat = tx).
    { unfold txof. rewrite Nat.add_sub, (Nat.add_comm _ i). rewrite Nat.div_add, Nat.div_small by lia. lia. }
    assert (E2 : iof ((N.to_nat tx - 1) * q + i + 1)%nat = i).
    { unfold iof. rewrite Nat.add_sub, (Nat.add_comm _ i). rewrite Nat.mod_add, Nat.mod_small by lia. reflexivity. }
    rewrite E1, E2. exact Hw'. }
  assert (Htx : 1 <= txof t <= last_time d).
  { unfold txof. assert ((t - 1) / q < N.to_nat (last_time d))%nat by (apply Nat.div_lt_upper_bound; [lia|]; rewrite Nat.mul_comm; apply (Nat.lt_le_trans _ t); [|exact (proj2 Ht)]; destruct Ht as [Ht _]; clear - Ht; lia). revert H. generalize ((t - 1) / q)%nat. intros k0 Hk0. clear - Hk0. lia. }
  set (G := fun z : hcoins * S => let '(y, ys, rs, hs, u) := z in
     (@Gz (with_hash E (answer cs hs)) g d cs a b (txof t) (number (iof t)) (one_signer (relabelled cs hs (adv u))) (y, ys, rs), hs, u)).
  assert (HG : forall y ys rs hs u, hcoins_ok d n q (y, ys, rs, hs) ->
     coins_ok d n (fst (fst (G (y, ys, rs, hs, u)))) /\ @Fz (with_hash E (answer cs hs)) g d cs a b (txof t) (number (iof t)) (one_signer (relabelled cs hs (adv u))) (fst (fst (G (y, ys, rs, hs, u)))) = (y, ys, rs)).
  { intros y ys rs hs u (Hc & _ & Hhs & _). exact (Gz_ok (answer_laws L cs hs Hhs) g Hg d cs a b (txof t) (number (iof t)) Hd Htx _ n (y, ys, rs) Hc). }
  exists (txof t), (iof t), (map G us). split; [exact Htx|]. split; [apply Nat.mod_upper_bound; lia|].
  split; [rewrite map_length; nia|]. split.
  - clear Hl. induction us as [|z us IH]; [constructor|]. inversion Nu as [|? ? Nz Nus]; subst. inversion Fu as [|? ? Fz0 Fus]; subst. cbn [map].
    constructor; [|exact (IH Nus Fus)]. intros Hin. apply in_map_iff in Hin as (z' & He & Hin). apply Nz. replace z with z'; [exact Hin|].
    rewrite Forall_forall in Fus. destruct (Fus z' Hin) as [Hz' _]. destruct Fz0 as [Hz _].
    destruct z as [[[[y ys] rs] hs] u], z' as [[[[y' ys'] rs'] hs'] u']. cbn [fst] in Hz, Hz'. assert (Hh : hs' = hs /\ u' = u) by (injection He; auto). destruct Hh as [-> ->].
    do 2 f_equal. rewrite <- (proj2 (HG _ _ _ _ u Hz)), <- (proj2 (HG _ _ _ _ u Hz')). f_equal. exact (f_equal (fun v => fst (fst v)) He).
  - apply Forall_forall. intros z Hz. apply in_map_iff in Hz as (z' & <- & Hin). rewrite Forall_forall in Fu. destruct (Fu z' Hin) as (Hz' & Hu & Hw).
    destruct z' as [[[[y ys] rs] hs] u]. cbn [fst snd] in *. destruct (HG _ _ _ _ u Hz') as [H1 H2]. pose proof Hz' as (Hc & Hlq & Hhs & Hnd).
    unfold G in H1, H2 |- *. cbn [fst snd] in H1, H2 |- *. destruct (Gz _ _ _ _ _ _ _ _ _) as [[c cl] rs'] eqn:Q. cbn beta in H1, H2.
    split; [split; [exact H1|auto]|]. split; [exact Hu|]. cbn [hsolve].
    refine (Fz_wins (answer_laws L cs hs Hhs) g Hg d cs a b (txof t) (number (iof t)) Hd Htx (one_signer (relabelled cs hs (adv u))) m n (c, cl, rs') H1 _).
    rewrite H2. exact Hw.
Qed.

(** The forger who knows the logarithms. *)
Fixpoint knowing {E} (dl : G2 E -> N) (pts : list (G1 E)) (ptbl : list bytes) (pk : pubkey E) (f : pforger E) : hforger E :=
  match f with
  | PForge msg s l => HForge msg s (dlist dl pk (usable_list pts (enter_all ptbl l) l))
  | PAskKey t k => HAskKey t (fun a => knowing dl pts ptbl pk (k a))
  | PAskSig t msg k => HAskSig t msg (fun a => knowing dl pts ptbl pk (k a))
  | PAskHash b k => HAskHash b (fun h => knowing dl pts ptbl pk (k h))
  | PAskPoint msg c k => knowing dl pts (enter ptbl (point_input msg c)) pk (k (nth (position ptbl (point_input msg c)) pts g1_zero))
  end.
Lemma knowing_play {E} (pp : pubparam E) x hs dl pts pk : forall f tbl ptbl rs msg s l tbl' ptbl' q,
  pplay pp x hs tbl pts ptbl rs f = Some (msg, s, l, tbl', ptbl', q) ->
  hplay pp x hs tbl rs (knowing dl pts ptbl pk f) = Some (msg, s, dlist dl pk (usable_list pts ptbl' l), tbl', q)
  /\ (exists e, ptbl' = ptbl ++ e) /\ (length ptbl' <= length pts)%nat /\ Forall (fun kp => In (pop_input (fst kp)) ptbl') l.
Proof.
  induction f as [msg0 s0 l0|t k IH|t msg0 k IH|b k IH|msg0 c k IH]; intros tbl ptbl rs msg s l tbl' ptbl' q Hp; cbn [pplay knowing hplay] in *.
  - destruct (nth_error hs _); [|discriminate Hp]. destruct (_ <=? _)%nat eqn:Q; [|discriminate Hp]. injection Hp as <- <- <- <- <- <-.
    split; [reflexivity|]. split; [apply enter_all_app|]. split; [lia|]. apply Forall_forall. intros kp Hk. apply enter_all_in, Hk.
  - destruct rs as [|r0 rs]; [discriminate Hp|]. destruct (in_tree (pp_depth pp) t); [|discriminate Hp].
    destruct (pplay pp x hs tbl pts ptbl rs (k _)) as [[[[[[msg1 s1] l1] tbl1] ptbl1] q1]|] eqn:Hk in Hp; [|discriminate Hp]. cbn [hnote] in Hp. injection Hp as <- <- <- <- <- <-.
    destruct (IH _ _ _ _ _ _ _ _ _ _ Hk) as (H1 & H2). rewrite H1. split; [reflexivity|exact H2].
  - destruct rs as [|r0 rs]; [discriminate Hp|]. destruct (in_tree (pp_depth pp) t); [|discriminate Hp]. destruct (nth_error hs _) as [h|]; [|discriminate Hp].
    destruct (pplay pp x hs (enter tbl _) pts ptbl rs (k _)) as [[[[[[msg1 s1] l1] tbl1] ptbl1] q1]|] eqn:Hk in Hp; [|discriminate Hp]. cbn [hnote] in Hp. injection Hp as <- <- <- <- <- <-.
    destruct (IH _ _ _ _ _ _ _ _ _ _ Hk) as (H1 & H2). rewrite H1. split; [reflexivity|exact H2].
  - destruct (nth_error hs _) as [h|]; [|discriminate Hp]. exact (IH _ _ _ _ _ _ _ _ _ _ Hp).
  - destruct (nth_error pts _) as [p|] eqn:Hn; [|discriminate Hp]. rewrite (nth_error_nth _ _ _ Hn).
    destruct (IH _ _ _ _ _ _ _ _ _ _ Hp) as (H1 & (e & He) & H3). split; [exact H1|]. split; [|exact H3].
    destruct (enter_app ptbl (point_input msg0 c)) as [e' He']. exists (e' ++ e). rewrite He, He'. symmetry. apply app_assoc.
Qed.

(** The solver's forger answers as that one. *)
Lemma re_isolate {E} H (pp : pubparam E) l s : isolate (re_pp (H := H) pp) l (re_sig s) = re_sig (isolate pp l s).
Proof. reflexivity. Qed.
Lemma psingle_play {E} (L : env_laws E) dl (g : G1 E) cs hs rho (pp : pubparam E) pk key sgn :
  (forall k, g2_insub k = true -> k = g2_mul (dl k) g2_one) -> g1_insub g = true -> g1_insub (pp_h pp) = true -> g2_insub (pk_pk pk) = true ->
  Forall (fun a => 0 < a < fr_modulus) rho ->
  forall f tbl e rs,
  play key sgn rs (psingle cs hs tbl (sim_points g (pp_h pp) rho) (pop_input pk :: e) rho pk f)
  = play key sgn rs (single (re_pp (H := answer cs hs) pp) (relabel cs hs tbl (knowing dl (sim_points g (pp_h pp) rho) (pop_input pk :: e) pk f))).
Proof.
  intros Hdl Hg Hh Hpk Hrho. induction f as [msg0 s0 l0|t k IH|t msg0 k IH|b k IH|msg0 c k IH]; intros tbl e rs; cbn [psingle knowing relabel single].
  - assert (Hf : re_sig (H := answer cs hs) (pisolate pk (enter_all (pop_input pk :: e) l0) rho (usable_list (sim_points g (pp_h pp) rho) (enter_all (pop_input pk :: e) l0) l0) s0)
      = isolate (re_pp pp) (dlist dl pk (usable_list (sim_points g (pp_h pp) rho) (enter_all (pop_input pk :: e) l0) l0)) (re_sig s0)).
    { rewrite re_isolate. f_equal. apply (pisolate_isolate L); [exact Hh|].
      assert (Hin : Forall (fun kp => In (pop_input (fst kp)) (enter_all (pop_input pk :: e) l0)) l0) by (apply Forall_forall; intros kp Hk; apply enter_all_in, Hk).
      destruct (enter_all_app l0 (pop_input pk :: e)) as [e' He]. rewrite He in *. cbn [app] in *. unfold usable_list.
      destruct (_ && _) eqn:Q; [|symmetry; apply (l1_mul0 E L)]. apply andb_true_iff in Q as [Q1 Q2]. rewrite sim_points_length in Q1.
      apply (others_known L dl g); auto. lia. }
    rewrite Hf. reflexivity.
  - destruct rs as [|r0 rs]; [reflexivity|]. cbn [play]. destruct (key t r0) as [a|]; [|reflexivity]. apply IH.
  - destruct rs as [|r0 rs]; [reflexivity|]. cbn [play]. destruct (sgn _ _ r0) as [a|]; [|reflexivity]. apply IH.
  - apply IH.
  - destruct (enter_app (pop_input pk :: e) (point_input msg0 c)) as [e' He]. rewrite He. cbn [app]. apply IH.
Qed.

(** The exponents of the points as multiples of h. *)
Definition to_rho (y : N) (zs : list N) : list N :=
  match zs with [] => [] | e :: zs' => e :: map (fun e => (e * fr_inv y) mod fr_modulus) zs' end.
Lemma div_mul_cong y e : y mod fr_modulus <> 0 -> cong ((e * fr_inv y) mod fr_modulus * y) e.
Proof.
  intros Hy. destruct (fr_inv_ok y Hy) as [q1 H1]. destruct (cong_mod (e * fr_inv y)) as [q2 H2].
  exists (q2 * Z.of_N y + q1 * Z.of_N e)%Z. rewrite !N2Z.inj_mul in *. fold r in *.
  revert H1 H2. generalize (Z.of_N (fr_inv y)) (Z.of_N y) (Z.of_N e) (Z.of_N ((e * fr_inv y) mod fr_modulus)). clear. intros u v w x H1 H2.
  replace x with (w * u + q2 * r)%Z by lia. replace ((w * u + q2 * r) * v - w)%Z with (w * (u * v) - w + q2 * r * v)%Z by ring. rewrite H1. ring.
Qed.
Lemma to_rho_length y zs : length (to_rho y zs) = length zs.
Proof. destruct zs; cbn [to_rho length]; [reflexivity|]. rewrite map_length. reflexivity. Qed.
Lemma to_rho_points {E} (L : env_laws E) (g : G1 E) y zs : g1_insub g = true -> y mod fr_modulus <> 0 ->
  sim_points g (g1_mul y g) (to_rho y zs) = map (fun e => g1_mul e g) zs.
Proof.
  intros Hg Hy. destruct zs as [|e zs]; [reflexivity|]. cbn [to_rho sim_points map]. f_equal. rewrite map_map. apply map_ext. intros e'.
  rewrite <- (l1_mul_mul E L). apply (cong_mul L); [exact Hg|apply div_mul_cong, Hy].
Qed.
Lemma to_rho_ok y zs : y mod fr_modulus <> 0 -> Forall (fun e => 0 < e < fr_modulus) zs -> Forall (fun e => 0 < e < fr_modulus) (to_rho y zs).
Proof.
  intros Hy H. destruct zs as [|e zs]; [constructor|]. inversion H as [|? ? He Hz]; subst. cbn [to_rho]. constructor; [exact He|].
  apply Forall_map. eapply Forall_impl; [|exact Hz]. cbv beta. intros e' He'. pose proof (N.mod_lt (e' * fr_inv y) fr_modulus ltac:(discriminate)) as Hlt.
  split; [|exact Hlt]. destruct (N.eq_dec ((e' * fr_inv y) mod fr_modulus) 0) as [Hz0|Hz0]; [exfalso|lia].
  pose proof (div_mul_cong y e' Hy) as Hc. rewrite Hz0 in Hc. cbn [N.mul] in Hc.
  apply cong_small in Hc; [lia|reflexivity|lia].
Qed.
Lemma to_rho_inj y zs zs' : y mod fr_modulus <> 0 -> Forall (fun e => 0 < e < fr_modulus) zs -> Forall (fun e => 0 < e < fr_modulus) zs' ->
  to_rho y zs = to_rho y zs' -> zs = zs'.
Proof.
  intros Hy H H' He. destruct zs as [|e zs], zs' as [|e' zs']; try discriminate He; [reflexivity|]. cbn [to_rho] in He. injection He as -> He. f_equal.
  inversion H as [|? ? _ Hz]; inversion H' as [|? ? _ Hz']; subst. clear H H'. revert zs' Hz' He. induction Hz as [|u zs Hu Hz IH]; intros zs' Hz' He.
  - destruct zs'; [reflexivity|discriminate He].
  - destruct Hz' as [|u' zs' Hu' Hz']; [discriminate He|]. cbn [map] in He. injection He as He1 He2. f_equal; [|exact (IH _ Hz' He2)].
    apply cong_small; [lia|lia|]. pose proof (div_mul_cong y u Hy) as H1. rewrite He1 in H1. pose proof (div_mul_cong y u' Hy) as H2.
    destruct H1 as [a Ha], H2 as [b Hb]. exists (b - a)%Z. lia.
Qed.

Lemma signers_dlist {E} (L : env_laws E) dl (pp : pubparam E) pk l : (forall k, g2_insub k = true -> k = g2_mul (dl k) g2_one) -> pp_g2 pp = g2_one ->
  Forall (fun kp => g2_insub (pk_pk (fst kp)) = true /\ pk_cs (fst kp) = pp_cs pp) l ->
  signers pp pk (dlist dl pk l) = map fst l.
Proof.
  intros Hdl Hg2 Hf. unfold dlist, signers. rewrite map_map. apply map_ext_in. intros [k p] Hk. cbn [fst].
  rewrite Forall_forall in Hf. destruct (Hf _ Hk) as [Hs Hc]. cbn [fst] in *.
  destruct (pk_eqb k pk) eqn:Q; [symmetry; apply (pk_eqb_eq L), Q|].
  rewrite Hg2, <- (Hdl _ Hs), <- Hc. destruct k; reflexivity.
Qed.

Definition family {E} (dl : G2 E -> N) (g : G1 E) (cs a : N) (adv : pforger_for E) (rho : list N) (pp : pubparam E) (pk : pubkey E) : hforger E :=
  knowing dl (sim_points g (pp_h pp) rho) [pop_input pk] pk
    (adv pp pk (Pop cs (g1_mul a (nth 0 (sim_points g (pp_h pp) rho) g1_zero)))).

Lemma pwins_family {E} (L : env_laws E) dl m (g : G1 E) d cs a adv y ys rs hs zs :
  (forall k, g2_insub k = true -> k = g2_mul (dl k) g2_one) -> g1_insub g = true -> y mod fr_modulus <> 0 ->
  pwins m g d cs a adv (y, ys, rs, hs, zs) -> hwins m g d cs a (family dl g cs a adv (to_rho y zs)) (y, ys, rs, hs).
Proof.
  intros Hdl Hg Hy (msg & s & l & tbl & ptbl & q & Hp & Hin & Hlen & Hfr & Hpr & Hv). specialize (Hpr eq_refl).
  set (pp := exp_params g d cs y ys) in *. set (pk := PubKey cs (g2_mul a g2_one)) in *. set (pts := map (fun e => g1_mul e g) zs) in *.
  destruct (knowing_play pp a hs dl pts pk _ _ _ _ _ _ _ _ _ _ Hp) as (Hh & (e & He) & Hl & Hi).
  assert (Hu : usable_list pts ptbl l = l).
  { unfold usable_list. rewrite Hpr. replace (length ptbl <=? length pts)%nat with true by lia. reflexivity. }
  rewrite Hu in Hh. exists msg, s, (dlist dl pk l), tbl, q. split.
  { unfold family. change (pp_h (exp_params g d cs y ys)) with (g1_mul y g). rewrite (to_rho_points L g y zs Hg Hy). exact Hh. }
  split; [|split; [unfold dlist; rewrite map_length; exact Hlen|split; [exact Hfr|]]].
  - apply in_map_iff in Hin as ((k & p) & Hk & Hin). cbn [fst] in Hk. subst k. unfold dlist. apply in_map_iff. exists (pk, p). cbn [fst]. rewrite (proj2 (pk_eqb_eq L pk pk) eq_refl). auto.
  - fold pp. fold pk. rewrite signers_re, (signers_dlist L dl pp pk l Hdl eq_refl); [exact Hv|].
    rewrite verify_agg_re in Hv. destruct (forallb (fun k => pp_cs pp =? pk_cs k) (map fst l)) eqn:Hcs; [|discriminate Hv].
    apply Forall_forall. intros [k p] Hk. cbn [fst]. rewrite forallb_forall in Hpr, Hcs. specialize (Hpr _ Hk). apply proved_parts in Hpr as (_ & _ & Hs & _ & _).
    specialize (Hcs k (in_map fst _ _ Hk)). apply N.eqb_eq in Hcs. auto.
Qed.

Lemma challenge_1_insub {E} (L : env_laws E) (g : G1 E) d a : g1_insub g = true -> forall n, g1_insub (nth n (map (fun i => g1_mul (a ^ N.of_nat i) g) (seq 0 (d + 1))) g1_zero) = true.
Proof.
  intros Hg n. match goal with |- context [nth ?n ?l ?z] => destruct (nth_in_or_default n l z) as [Hi| ->] end; [|apply (l1_sub0 E L)].
  apply in_map_iff in Hi as (j & <- & _). apply (g1_mul_insub L), Hg.
Qed.
Lemma challenge_2_insub {E} (L : env_laws E) d a : forall n, g2_insub (nth n (map (fun i => g2_mul (a ^ N.of_nat i) (@g2_one E)) (seq 0 (d + 1))) g2_zero) = true.
Proof.
  intros n. match goal with |- context [nth ?n ?l ?z] => destruct (nth_in_or_default n l z) as [Hi| ->] end; [|apply (l2_sub0 E L)].
  apply in_map_iff in Hi as (j & <- & _). apply (g2_mul_insub L), (l2_one_sub E L).
Qed.
Lemma psolve_family {E} (L : env_laws E) dl (g : G1 E) d cs a b tx i adv c cl rs hs rho :
  (forall k, g2_insub k = true -> k = g2_mul (dl k) g2_one) -> g1_insub g = true -> (1 <= d < 64)%nat -> Forall (fun e => 0 < e < fr_modulus) rho ->
  psolve (challenge_for g d a b) d cs tx i adv (c, cl, rs, hs, rho)
  = hsolve (challenge_for g d a b) d cs tx i (family dl g cs a adv rho) (c, cl, rs, hs).
Proof.
  intros Hdl Hg Hd Hrho. unfold psolve, hsolve, solve, sim_play.
  assert (H0 : pw (challenge_for g d a b) 0 = g).
  { unfold pw, challenge_for. cbn [ch_1]. rewrite Nat.add_comm. cbn [Nat.add seq map nth]. change (a ^ N.of_nat 0) with 1. apply (l1_mul1 E L). }
  assert (H1 : pw (challenge_for g d a b) 1 = g1_mul a g).
  { unfold pw, challenge_for. cbn [ch_1]. destruct d as [|d']; [lia|]. rewrite Nat.add_comm. cbn [Nat.add seq map nth]. change (N.of_nat 1) with 1. rewrite N.pow_1_r. reflexivity. }
  set (pp := sim_pp (E := with_hash E (answer cs hs)) _ _ _ _ _ _). set (pk := sim_pk _ _).
  assert (Hpp : g1_insub (pp_h (un_pp pp)) = true).
  { unfold pp, sim_pp, un_pp. cbn [pp_h g1_add g1_mul with_hash]. apply (l1_sub_add E L).
    - exact (challenge_1_insub L g d a Hg d).
    - apply (g1_mul_insub L). change (g1_insub (pw (challenge_for g d a b) 0) = true). rewrite H0. exact Hg. }
  assert (Hpk : g2_insub (pk_pk (un_pk pk)) = true).
  { exact (challenge_2_insub L d a 1). }
  unfold one_signer, family. rewrite H0, H1.
  assert (Hpop : g1_mul (nth 0 rho 0) (g1_mul a g) = g1_mul a (nth 0 (sim_points g (pp_h (un_pp pp)) rho) g1_zero)).
  { destruct rho as [|e rho]; cbn [nth sim_points]; [rewrite (l1_mul0 E L); symmetry; apply (nm_mulz _ _ _ (nmod_g1 L))|]. rewrite <- !(l1_mul_mul E L). f_equal. lia. }
  rewrite Hpop. change pp with (re_pp (H := answer cs hs) (un_pp pp)) at 6.
  rewrite (psingle_play L dl g cs hs rho (un_pp pp) (un_pk pk) _ _ Hdl Hg Hpp Hpk Hrho). reflexivity.
Qed.

Lemma pop_forger_solves : forall (E : env) (L : env_laws E) m (g : G1 E) d cs a b adv n q p ws,
  g1_insub g = true -> (1 <= d < 64)%nat -> (1 <= q)%nat ->
  NoDup ws -> Forall (fun z => pcoins_ok d n q p z /\ h_nonzero z /\ pwins m g d cs a adv z) ws ->
  exists tx i zs, 1 <= tx <= last_time d /\ (i < q)%nat
    /\ N.of_nat (length ws) <= last_time d * N.of_nat q * N.of_nat (length zs) /\ NoDup zs
    /\ Forall (fun z => pcoins_ok d n q p z /\ psolve (challenge_for g d a b) d cs tx i adv z = Some (solution g d a b)) zs.
Proof.
  intros E L m g d cs a b adv n q p ws Hg Hd Hq Hn Hf. destruct (dlog_exists L) as [dl Hdl].
  set (T := fun z : pcoins => let '(y, ys, rs, hs, zs) := z in (y, ys, rs, hs, to_rho y zs) : pcoins).
  set (OK := fun rho => length rho = p /\ Forall (fun e => 0 < e < fr_modulus) rho).
  assert (Hy : forall z, pcoins_ok d n q p z -> h_nonzero z -> fst (fst (fst (fst z))) mod fr_modulus <> 0).
  { intros [[[[y ys] rs] hs] zs] (((Hy & _) & _) & _) H0. cbn [fst h_nonzero] in *. rewrite N.mod_small by exact Hy. exact H0. }
  destruct (family_solves OK E L m g d cs a b (family dl g cs a adv) n q (map T ws) Hg Hd Hq) as (tx & i & zs & Htx & Hi & Hl & Hnd & Hz).
  - clear - Hn Hf Hy. induction Hn as [|z ws Hz Hn IH]; [constructor|]. inversion Hf as [|? ? Fz0 Fws]; subst. cbn [map]. constructor; [|exact (IH Fws)].
    intros Hin. apply in_map_iff in Hin as (z' & He & Hin). apply Hz. replace z with z'; [exact Hin|].
    rewrite Forall_forall in Fws. destruct (Fws z' Hin) as (Hok' & Hnz' & _). destruct Fz0 as (Hok & Hnz & _). specialize (Hy z Hok Hnz).
    destruct z as [[[[y ys] rs] hs] zs], z' as [[[[y' ys'] rs'] hs'] zs']. unfold T in He. injection He as -> -> -> -> He. cbn [fst] in Hy. f_equal.
    destruct Hok as (_ & _ & Hok), Hok' as (_ & _ & Hok'). exact (to_rho_inj y _ _ Hy Hok' Hok He).
  - apply Forall_map. eapply Forall_impl; [|exact Hf]. intros z (Hok & Hnz & Hw). specialize (Hy z Hok Hnz). destruct z as [[[[y ys] rs] hs] zs]. cbn [fst] in Hy.
    unfold T. cbn [fst snd]. destruct Hok as (H1 & H2 & H3). cbn [fst snd] in H1, H2, H3. split; [exact H1|]. split; [split; [rewrite to_rho_length; exact H2|exact (to_rho_ok y zs Hy H3)]|].
    exact (pwins_family L dl m g d cs a adv y ys rs hs zs Hdl Hg Hy Hw).
  - exists tx, i, zs. rewrite map_length in Hl. split; [exact Htx|]. split; [exact Hi|]. split; [exact Hl|]. split; [exact Hnd|].
    eapply Forall_impl; [|exact Hz]. intros [[[[c cl] rs] hs] rho] (H1 & (H2 & H3) & H4). cbn [fst snd] in *. split; [split; [exact H1|split; assumption]|].
    etransitivity; [exact (psolve_family L dl g d cs a b tx i adv c cl rs hs rho Hdl Hg Hd H3)|exact H4].
Qed.

(** Without proofs of possession. *)
Lemma rogue_wins : forall (E : env) (L : env_laws E) m (g : G1 E) d cs x y tx k msg n q p z,
  g1_insub g = true -> (1 <= d < 64)%nat -> (cs = 0 \/ cs = 1) -> 1 <= tx <= last_time d -> (1 <= q)%nat -> (2 <= p)%nat ->
  pcoins_ok d n q p z ->
  pwins_if false m g d cs x (rogue_forger y tx k msg) z.
Proof.
  intros E L m g d cs x y tx k msg n q p [[[[c cl] rs] hs] zs] Hg Hd Hcs Htx Hq Hp (((_ & (Hl & _) & _) & Hhs & Hhv & _) & Hz & _). cbn [snd] in Hz.
  pose proof (exp_params_ok L g d cs c cl Hg Hd Hl) as Hpp.
  unfold pwins_if. set (pp := exp_params g d cs c cl) in *. set (pk := PubKey cs (g2_mul x g2_one)). set (pop := Pop cs _).
  destruct hs as [|h hs]; [cbn in Hhs; lia|].
  unfold rogue_forger. cbn [pplay position nth_error]. set (b := hash_input (pp_cs pp) msg).
  assert (Hpos : position (enter [] b) b = 0%nat) by (unfold enter; cbn [position length Nat.ltb Nat.leb app]; replace (bytes_eqb b b) with true by (symmetry; apply bytes_eqb_eq; reflexivity); reflexivity).
  rewrite Hpos. cbn [nth_error].
  assert (Hle : (length (enter_all [pop_input pk] [(rogue pp y [pk], pop); (pk, pop)]) <= 2)%nat).
  { unfold enter_all. cbn [fold_left fst].
    assert (Hpk : forall t, In (pop_input pk) t -> enter t (pop_input pk) = t) by (intros t Ht; unfold enter; apply position_in in Ht; replace (position t (pop_input pk) <? length t)%nat with true by lia; reflexivity).
    rewrite Hpk; [|destruct (enter_app [pop_input pk] (pop_input (rogue pp y [pk]))) as [e ->]; left; reflexivity].
    unfold enter. destruct (_ <? _)%nat; cbn [length app]; lia. }
  replace (length (enter_all [pop_input pk] [(rogue pp y [pk], pop); (pk, pop)]) <=? length (map (fun e : N => g1_mul e g) zs))%nat with true by (rewrite map_length; lia).
  do 6 eexists. split; [reflexivity|]. split; [right; left; reflexivity|]. split; [reflexivity|]. split; [reflexivity|]. split; [discriminate|].
  cbn [map fst]. set (H := table _ _).
  assert (HL : env_laws (with_hash E H)).
  { apply with_hash_laws; [exact L| |]; intros b'; apply (nth_hash (h :: hs)); exact Hhv. }
  pose proof (rogue_key (with_hash E H) HL m (re_pp pp) [re_pk pk] y tx (path_of d tx) k msg) as Hr.
  assert (Hpp' : pp_ok (re_pp (H := H) pp)) by (destruct Hpp; constructor; assumption).
  assert (Hpk : Forall (usable (re_pp (H := H) pp)) [re_pk pk]).
  { constructor; [|constructor]. split; [reflexivity|]. exact (g2_mul_insub L x _ (l2_one_sub E L)). }
  specialize (Hr Hpp' Hcs Hpk (path_node d tx Htx)). destruct Hr as [_ Hr].
  rewrite <- Hr. f_equal.
  unfold re_sig, honest_sig. cbn [sig_cs sig_time sig_1 sig_2].
  assert (Hm : msg_scalar (re_pp (H := H) pp) msg = scalar_of h).
  { change (scalar_of (H b) = scalar_of h). unfold H, table.
    assert (Hp2 : position (enter (enter [] b) b) b = 0%nat) by (rewrite enter_pos; exact Hpos). fold b. rewrite Hp2. reflexivity. }
  rewrite Hm. unfold sig_val. rewrite (node_val_re H). reflexivity.
Qed.
