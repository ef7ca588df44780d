(** Lemmas behind Properties_Grow.v. *)
From Coq Require Import ZifyBool ZifyN ZifyNat.
From Verif Require Import Base Env SpecTime Time TimeFacts Prng SpecPrng SubKey SecretKey Keys Sig Api SpecKey SpecUpdate SpecDerive SpecGrow
  SubKeyFacts KeyFacts UpdateFacts HistoryFacts SubProps.
Local Open Scope N_scope.

Lemma sibs_right : forall v pre acc, sibs pre v acc = right_sibs pre v ++ acc.
Proof.
  induction v as [|x v IH]; intros pre acc; [reflexivity|]. cbn [sibs right_sibs]. rewrite IH. destruct (x =? 1).
  - rewrite <- app_assoc. reflexivity.
  - rewrite app_nil_r. reflexivity.
Qed.
Lemma right_sibs_length : forall v pre, length (right_sibs pre v) = lefts v.
Proof.
  induction v as [|x v IH]; intros pre; [reflexivity|]. cbn [right_sibs]. rewrite app_length, IH. unfold lefts. cbn [filter].
  rewrite (N.eqb_sym 1 x). destruct (x =? 1); cbn [length]; lia.
Qed.

Lemma hvec_len {E} (pp : pubparam E) x t v r : pp_ok pp -> length (sk_hvec (honest_ssk pp x t v r)) = (pp_depth pp - length v)%nat.
Proof.
  intros Hpp. cbn [honest_ssk sk_hvec]. rewrite map_length, firstn_length, skipn_length. pose proof (ppo_len pp Hpp). lia.
Qed.

Lemma key_times {E} (pp : pubparam E) x sk v : pp_ok pp -> good_sk pp x sk -> node_at (pp_depth pp) (sec_time sk) v ->
  map sk_t (sec_ssk sk) = map (ptime (pp_depth pp)) (v :: right_sibs [] v) /\ Forall (valid_path (pp_depth pp)) (v :: right_sibs [] v).
Proof.
  intros Hpp Hg Hn. pose proof (ppo_depth pp Hpp) as Hd.
  pose proof (proj1 (node_at_ptime _ _ _) Hn) as [Hv Ht].
  pose proof (sibs_tiling (pp_depth pp) [] v [] Hv) as Hs. cbn [app] in Hs. rewrite (sibs_right v [] []), app_nil_r in Hs.
  assert (H0 : ptiling (pp_depth pp) (ptime (pp_depth pp) [] + psize (pp_depth pp) []) []).
  { unfold psize. cbn [length]. rewrite Nat.sub_0_r. replace (ptime (pp_depth pp) [] + (pow2 (pp_depth pp) - 1)) with (pow2 (pp_depth pp)); [constructor|].
    pose proof (pow2_pos (pp_depth pp)). destruct (pp_depth pp); cbn [ptime]; lia. }
  specialize (Hs H0). apply ptiling_tiling in Hs. rewrite <- Ht in Hs. split; [exact (tiling_fun _ _ _ _ (gsk_til pp x sk Hg) Hs)|].
  constructor; [exact Hv|]. pose proof (sibs_valid (pp_depth pp) [] v [] Hv ltac:(constructor)) as H. rewrite sibs_right, app_nil_r in H. exact H.
Qed.

Lemma key_nodes : forall (E : env) (L : env_laws E) m (pp : pubparam E) pk sk v,
  pp_ok pp -> reachable m pp pk sk -> node_at (pp_depth pp) (sec_time sk) v ->
  Forall2 (fun s w => node_at (pp_depth pp) (sk_t s) w /\ length (sk_hvec s) = (pp_depth pp - length w)%nat)
    (sec_ssk sk) (v :: right_sibs [] v)
  /\ length (sec_ssk sk) = (1 + lefts v)%nat.
Proof.
  intros E L m pp pk sk v Hpp Hr Hn. destruct (reachable_good L m pp pk sk Hpp Hr) as (x & _ & _ & Hg & _).
  destruct (key_times pp x sk v Hpp Hg Hn) as [Ht Hv]. split.
  - pose proof (gsk_honest pp x sk Hg) as Hh. revert Ht Hv Hh. generalize (v :: right_sibs [] v). generalize (sec_ssk sk).
    induction l as [|s l IH]; intros [|w ws] Ht Hv Hh; try discriminate Ht; [constructor|]. cbn [map] in Ht. injection Ht as Hs Ht.
    inversion Hv as [|? ? Hw Hws]; subst. inversion Hh as [|? ? (u & r & Hu & He) Hl]; subst.
    assert (Hnw : node_at (pp_depth pp) (sk_t s) w) by (apply node_at_ptime; split; assumption).
    constructor; [|exact (IH ws Ht Hws Hl)]. split; [exact Hnw|]. rewrite He, (hvec_len pp _ _ _ _ Hpp). rewrite (node_at_fun _ _ _ _ Hu Hnw). reflexivity.
  - apply (f_equal (@length N)) in Ht. rewrite !map_length in Ht. rewrite Ht. cbn [length]. rewrite right_sibs_length. reflexivity.
Qed.

(** Sizes. *)
Definition total (l : list nat) : nat := fold_right Nat.add 0%nat l.
Lemma total_app a b : total (a ++ b) = (total a + total b)%nat.
Proof. induction a as [|x a IH]; [reflexivity|]. cbn [app total fold_right]. fold (total a). unfold total at 1. fold (total (a ++ b)). rewrite IH. cbn [total fold_right]. fold (total a). lia. Qed.
Lemma spec_size_total l : spec_size l = (66 + 149 * length l + 96 * total l)%nat.
Proof.
  unfold spec_size. enough (H : fold_right (fun n acc => (4 + 1 + 48 + 96 + n * 96) + acc)%nat 0%nat l = (149 * length l + 96 * total l)%nat) by lia.
  induction l as [|n l IH]; [reflexivity|]. cbn [fold_right length total]. fold (total l). rewrite IH. lia.
Qed.
Lemma total_bound d : forall v pre, (length pre + length v < d)%nat ->
  (2 * ((d - (length pre + length v)) + total (map (fun w => d - length w) (right_sibs pre v)))
   <= 2 + (d - length pre) * (d - length pre - 1))%nat.
Proof.
  induction v as [|x v IH]; intros pre Hl.
  - cbn [right_sibs map total fold_right length]. rewrite !Nat.add_0_r. assert (1 <= d - length pre)%nat by (cbn [length] in Hl; lia). set (k := (d - length pre)%nat) in *. clearbody k.
    destruct k as [|[|k]]; [lia|reflexivity|]. nia.
  - cbn [right_sibs length] in *. rewrite map_app, total_app. specialize (IH (pre ++ [x]) ltac:(rewrite app_length; cbn [length]; lia)).
    rewrite app_length in IH. cbn [length] in IH.
    assert (Hs : (total (map (fun w => d - length w) (if (x =? 1)%N then [pre ++ [2%N]] else [])) <= d - length pre - 1)%nat).
    { destruct (x =? 1); cbn [map total fold_right]; [rewrite app_length; cbn [length]|]; lia. }
    replace (length pre + S (length v))%nat with (length pre + 1 + length v)%nat by lia.
    set (T := total (map _ (right_sibs (pre ++ [x]) v))) in *. set (S1 := total _) in *. clearbody T S1.
    replace (d - (length pre + 1))%nat with (d - length pre - 1)%nat in IH by lia. set (k := (d - length pre)%nat) in *. assert (1 < k)%nat by lia. 
    set (q := (d - (length pre + 1 + length v))%nat) in *. clearbody q k. clear - IH Hs H.
    destruct k as [|[|k]]; [lia|lia|]. replace (S (S k) - 1 - 1)%nat with k in IH by lia. replace (S (S k) - 1)%nat with (S k) in * by lia. nia.
Qed.
Lemma lefts_le v : (lefts v <= length v)%nat.
Proof. induction v as [|x v IH]; [reflexivity|]. unfold lefts in *. cbn [filter length]. destruct (1 =? x); cbn [length]; lia. Qed.
Lemma sizes_eq {E} (pp : pubparam E) (l : list (subkey E)) ws :
  Forall2 (fun s w => node_at (pp_depth pp) (sk_t s) w /\ length (sk_hvec s) = (pp_depth pp - length w)%nat) l ws ->
  map (fun s => length (sk_hvec s)) l = map (fun w => (pp_depth pp - length w)%nat) ws.
Proof. induction 1 as [|s w l ws [_ H] _ IH]; [reflexivity|]. cbn [map]. rewrite H, IH. reflexivity. Qed.

Lemma key_size_bound : forall (E : env) (L : env_laws E) m (pp : pubparam E) pk sk,
  pp_ok pp -> reachable m pp pk sk ->
  (length (sec_ssk sk) <= pp_depth pp)%nat /\ (sk_size sk <= largest (pp_depth pp))%nat
  /\ (sec_time sk = N.of_nat (pp_depth pp) -> length (sec_ssk sk) = pp_depth pp /\ sk_size sk = largest (pp_depth pp)).
Proof.
  intros E L m pp pk sk Hpp Hr. destruct (reachable_good L m pp pk sk Hpp Hr) as (x & _ & _ & Hg & _).
  destruct (good_sk_head pp x sk Hg) as (v & _ & _ & Hn & _). destruct (key_nodes E L m pp pk sk v Hpp Hr Hn) as [Hf Hl].
  pose proof (ppo_depth pp Hpp) as Hd. pose proof (proj1 (node_at_ptime _ _ _) Hn) as [[Hturn Hlen] Ht].
  pose proof (lefts_le v) as Hle.
  rewrite (sk_size_spec sk), (sizes_eq pp _ _ Hf), spec_size_total, map_length. cbn [length map total fold_right]. fold (total (map (fun w => (pp_depth pp - length w)%nat) (right_sibs [] v))).
  rewrite right_sibs_length. pose proof (total_bound (pp_depth pp) v [] Hlen) as Hb. cbn [length Nat.add] in Hb. rewrite Nat.sub_0_r in Hb. unfold largest.
  split; [lia|]. split; [lia|]. intros Htd.
  assert (Hv : v = repeat 1 (pp_depth pp - 1)).
  { assert (Hr1 : node_at (pp_depth pp) (N.of_nat (pp_depth pp)) (repeat 1 (pp_depth pp - 1))).
    { apply node_at_ptime. clear - Hd. destruct (pp_depth pp) as [|k]; [lia|]. replace (S k - 1)%nat with k by lia. clear Hd. split.
      - split; [|rewrite repeat_length; lia]. apply Forall_forall. intros y Hy. apply repeat_spec in Hy. subst y. left. reflexivity.
      - induction k as [|k IH]; [reflexivity|]. cbn [repeat]. change (ptime (S (S k)) (1 :: repeat 1 k)) with (1 + ptime (S k) (repeat 1 k)). rewrite <- IH. lia. }
    rewrite Htd in Hn. exact (node_at_fun _ _ _ _ Hn Hr1). }
  assert (Hlv : length v = (pp_depth pp - 1)%nat) by (rewrite Hv; apply repeat_length).
  assert (Hlf : lefts v = (pp_depth pp - 1)%nat).
  { rewrite Hv. unfold lefts. generalize (pp_depth pp - 1)%nat. intros k. induction k as [|k IH]; [reflexivity|]. cbn [repeat filter N.eqb Pos.eqb length]. rewrite IH. reflexivity. }
  split; [lia|]. rewrite Hlf, Hlv. replace (pp_depth pp - (pp_depth pp - 1))%nat with 1%nat by lia.
  assert (Hex : forall k pre, (length pre + k < pp_depth pp)%nat ->
     (2 * (total (map (fun w => (pp_depth pp - length w)%nat) (right_sibs pre (repeat 1%N k)))) + (pp_depth pp - length pre - k) * (pp_depth pp - length pre - k - 1)
      = (pp_depth pp - length pre) * (pp_depth pp - length pre - 1))%nat).
  { clear. induction k as [|k IH]; intros pre Hk; [cbn [repeat right_sibs map total fold_right]; rewrite Nat.sub_0_r; reflexivity|].
    cbn [repeat right_sibs N.eqb Pos.eqb]. rewrite map_app, total_app. cbn [map total fold_right]. specialize (IH (pre ++ [1]) ltac:(rewrite app_length; cbn [length]; lia)).
    rewrite !app_length in *. cbn [length] in *. set (T := total _) in *. clearbody T.
    replace (pp_depth pp - (length pre + 1))%nat with (pp_depth pp - length pre - 1)%nat in * by lia.
    replace (pp_depth pp - length pre - 1 - k)%nat with (pp_depth pp - length pre - S k)%nat in IH by lia.
    set (j := (pp_depth pp - length pre)%nat) in *. assert (S k < j)%nat by lia. clearbody j. clear Hk.
    destruct j as [|[|j]]; [lia|lia|]. replace (S (S j) - 1)%nat with (S j) in * by lia. replace (S j - 1)%nat with j in * by lia. nia. }
  specialize (Hex (pp_depth pp - 1)%nat [] ltac:(cbn [length]; lia)). rewrite <- Hv in Hex. cbn [length] in Hex. rewrite Nat.sub_0_r in Hex.
  replace (pp_depth pp - (pp_depth pp - 1))%nat with 1%nat in Hex by lia. cbn [Nat.sub Nat.mul] in Hex.
  change (fold_right Nat.add 0%nat) with total. lia.
Qed.

Lemma children d t v : node_at d t v -> (length v < d - 1)%nat ->
  node_at d (t + 1) (v ++ [1]) /\ node_at d (t + pow2 (d - 1 - length v)) (v ++ [2]).
Proof.
  intros Hn Hl. apply node_at_ptime in Hn as [[Hf Hv] ->].
  assert (V : forall x, turn x -> valid_path d (v ++ [x])).
  { intros x Hx. split; [apply Forall_app; split; [exact Hf|constructor; [exact Hx|constructor]]|]. rewrite app_length. cbn [length]. lia. }
  assert (T1 : turn 1) by (left; reflexivity). assert (T2 : turn 2) by (right; reflexivity).
  split; apply node_at_ptime; (split; [apply V; assumption|]); rewrite ptime_snoc by auto; cbn [N.eqb Pos.eqb].
  - reflexivity.
  - f_equal. f_equal. lia.
Qed.

Lemma next_step : forall (E : env) (L : env_laws E) m m' (pp : pubparam E) pk sk v seed sk',
  pp_ok pp -> reachable m pp pk sk -> node_at (pp_depth pp) (sec_time sk) v ->
  update m' pp (sec_time sk + 1) seed sk = (Ok tt, sk') ->
  let d := pp_depth pp in
  let t := sec_time sk in
  (length v = (d - 1)%nat -> sec_ssk sk' = tl (sec_ssk sk) /\ sec_prng sk' = spec_reseed sk seed)
  /\ ((length v < d - 1)%nat -> exists x r kept,
       pk_pk pk = g2_mul x (pp_g2 pp)
       /\ sec_ssk sk = honest_ssk pp x t v r :: kept
       /\ sec_ssk sk' = honest_ssk pp x (t + 1) (v ++ [1]) r
                        :: honest_ssk pp x (t + pow2 (d - 1 - length v)) (v ++ [2]) (r + added (sha512 E) (spec_reseed sk seed) 1) :: kept
       /\ sec_prng sk' = draws (sha512 E) 1 (spec_reseed sk seed)).
Proof.
  intros E L m m' pp pk sk v seed sk' Hpp Hr Hn Hu d t. destruct (reachable_good L m pp pk sk Hpp Hr) as (x & _ & Hpk & Hg & _).
  pose proof (ppo_depth pp Hpp) as Hd. fold d in Hd, Hn. fold t in Hn, Hu.
  assert (Htar : t + 1 <= last_time d).
  { pose proof (update_cases L m' pp x sk (t + 1) seed Hpp Hg) as Hc. unfold in_range in Hc. fold t d in Hc. destruct (t + 1 <=? last_time d) eqn:Q; [lia|].
    rewrite andb_false_r in Hc. rewrite Hu in Hc. discriminate Hc. }
  destruct (update_good L m' pp x sk (t + 1) seed Hpp Hg ltac:(unfold t, d in *; lia)) as (pre & ta & va & r & post & Hsp & Hcase).
  destruct Hsp as [Hl Hna Hcov Hpre Htil Hpost]. pose proof (gsk_til pp x sk Hg) as Ht. fold d t in Ht, Hna, Hcov, Htil. rewrite Hl in Ht.
  assert (Hpc : (d - length v = S (d - 1 - length v))%nat) by (pose proof (proj1 (node_at_ptime _ _ _) Hn) as [[_ Hv] _]; lia).
  split; intros Hlen.
  - (* leaf *)
    destruct pre as [|s pre].
    + cbn [app map] in Ht. apply tiling_inv in Ht as [He _]. cbn [honest_ssk sk_t] in He. subst ta. rewrite (node_at_fun _ _ _ _ Hna Hn) in Hcov.
      replace (d - length v)%nat with 1%nat in Hcov by lia. change (pow2 1) with 2 in Hcov. lia.
    + cbn [app map] in Ht. apply tiling_inv in Ht as (He & u & Hnu & Ht). rewrite <- He in Hnu. rewrite (node_at_fun _ _ _ _ Hnu Hn) in Ht. rewrite <- He in Ht.
      replace (d - length v)%nat with 1%nat in Ht by lia. change (pow2 1) with 2 in Ht.
      destruct pre as [|s2 pre].
      * cbn [app map] in Ht. apply tiling_inv in Ht as [He2 _]. cbn [honest_ssk sk_t] in He2. assert (ta = t + 1) by lia. subst ta.
        destruct Hcase as [[_ Hc]|[Hlt _]]; [|lia]. fold t in Hc. rewrite Hu in Hc. injection Hc as ->. cbn [sec_ssk sec_prng]. rewrite Hl. split; reflexivity.
      * cbn [app map] in Ht. apply tiling_inv in Ht as [He2 _]. inversion Hpre as [|? ? _ Hp2]; subst. inversion Hp2; subst. lia.
  - (* internal node *)
    
    assert (Hpow : 2 <= pow2 (d - 1 - length v)).
    { unfold pow2. change 2 with (2 ^ 1) at 1. apply N.pow_le_mono_r; lia. }
    destruct pre as [|s pre].
    2:{ cbn [app map] in Ht. apply tiling_inv in Ht as (He & u & Hnu & Ht). rewrite <- He in Hnu. rewrite (node_at_fun _ _ _ _ Hnu Hn) in Ht. rewrite <- He in Ht.
        rewrite Hpc, pow2_S in Ht. apply tiling_ge in Ht. rewrite Forall_forall in Ht. specialize (Ht ta). cbv beta in Ht.
        assert (In ta (map sk_t (pre ++ honest_ssk pp x ta va r :: post))) as Hin by (apply (in_map sk_t) with (x := honest_ssk pp x ta va r), in_or_app; right; left; reflexivity).
        specialize (Ht Hin). lia. }
    cbn [app map] in Ht. apply tiling_inv in Ht as [He _]. cbn [honest_ssk sk_t] in He. subst ta. pose proof (node_at_fun _ _ _ _ Hna Hn) as Hva. subst va.
    destruct Hcase as [[Hbad _]|(Hlt & tv & gpre & gpost & Htv & Hgl & (gpre' & Hgp) & Htil2 & Hmp & Hnodes & Hupd)]; [lia|].
    destruct (children d t v Hn Hlen) as [C1 C2].
    assert (Htil3 : tiling d (t + 1) ([t + 1; t + pow2 (d - 1 - length v)] ++ map sk_t post)).
    { cbn [app]. apply tile_cons with (v ++ [1]); [exact C1|]. rewrite app_length. cbn [length]. replace (d - (length v + 1))%nat with (d - 1 - length v)%nat by lia.
      replace (t + 1 + (pow2 (d - 1 - length v) - 1)) with (t + pow2 (d - 1 - length v)) by lia.
      apply tile_cons with (v ++ [2]); [exact C2|]. rewrite app_length. cbn [length]. replace (d - (length v + 1))%nat with (d - 1 - length v)%nat by lia.
      rewrite Hpc, pow2_S in Htil. replace (t + pow2 (d - 1 - length v) + (pow2 (d - 1 - length v) - 1)) with (t + (2 * pow2 (d - 1 - length v) - 1)) by lia. exact Htil. }
    pose proof (tiling_fun _ _ _ _ Htil2 Htil3) as Heq. apply app_inv_tail in Heq.
    destruct gpre as [|g1 [|g2 [|g3 gr]]]; try discriminate Heq. cbn [map] in Heq. injection Heq as E1 E2.
    inversion Hnodes as [|? ? [N1 _] Hr2]; subst. inversion Hr2 as [|? ? [N2 _] _]; subst. fold d in N1, N2. rewrite E1 in N1. rewrite E2 in N2.
    pose proof (node_at_fun _ _ _ _ N1 C1) as V1. pose proof (node_at_fun _ _ _ _ N2 C2) as V2.
    rewrite Hu in Hupd. cbn [spec_fresh] in Hupd. rewrite E1, E2, V1, V2 in Hupd.
    destruct (prng_eqb _ (sec_prng sk)); [discriminate Hupd|]. injection Hupd as ->. cbn [sec_ssk sec_prng].
    exists x, r, post. split; [reflexivity|]. split; [exact Hl|]. split; reflexivity.
Qed.
