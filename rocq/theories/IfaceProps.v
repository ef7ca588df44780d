(** The lemmas behind Properties_Iface.v. *)
From Coq Require Import Permutation.
From Coq Require Import ZifyBool ZifyN ZifyNat.
From Verif Require Import Base Env Time SpecTime Prng SpecPrng PrngFacts SubKey SecretKey Keys Sig IO Serdes Api SpecKey SpecUpdate SpecSer SpecAgg
  KeyFacts HistoryFacts KeyProps SerFacts SerProps SigProps
  SpecRed SpecMulti SpecRom SpecPop SpecFwd SpecClean SpecIface RedProps MultiProps RomProps CountProps PopProps PopCountProps FwdProps FwdCodeProps FwdGameProps FwdMainProps CleanMainProps.
Local Open Scope N_scope.

Section Same.
Context {E : env} (L : env_laws E) (pp : pubparam E) (Hpp : pp_ok pp) (Hdep : (pp_depth pp <= 32)%nat)
  (H : bytes -> bytes) (Q : bytes -> bytes -> G1 E) (m : mode)
  (HH : forall b, length (H b) = 64%nat /\ are_bytes (H b)) (HQ : forall msg cs, g1_insub (Q msg cs) = true).
Notation EH := (code_env E H Q).
Notation pp' := (@cv_pp E H Q pp).
Notation d := (pp_depth pp).

Lemma reach_step pk (sk : seckey EH) o r sk' : reachable m pp' pk sk -> step m pp' o sk = (r, sk') -> reachable m pp' pk sk'.
Proof.
  intros Hr Hs. pose proof (reachable_run m pp' pk sk [o] Hr) as Hx. cbn [run] in Hx. rewrite Hs in Hx. exact Hx.
Qed.
Lemma update_three pk (sk : seckey EH) t seed : reachable m pp' pk sk ->
  (exists sk', update m pp' t seed sk = (Ok tt, sk') /\ sec_time sk' = t /\ reachable m pp' pk sk' /\ sec_time sk < t <= last_time d)
  \/ (exists p, update m pp' t seed sk = (Panic p, sk) /\ sec_time sk < t <= last_time d)
  \/ (update m pp' t seed sk = (Err E_TIME_STAMP, sk) /\ ~ (sec_time sk < t <= last_time d)).
Proof.
  intros Hr. pose proof (LH L H Q HH HQ) as L'. pose proof (Hpp' pp Hpp H Q) as P'.
  destruct (update_outcomes EH L' m m pp' pk sk t seed P' Hr) as [H1 H2]. change (pp_depth pp') with d in *.
  destruct (N.ltb (sec_time sk) t && N.leb t (last_time d)) eqn:Q1.
  - destruct (H1 ltac:(lia)) as [[sk' Hu]|[Hu _]].
    + left. exists sk'. split; [exact Hu|]. destruct (update_result_shape EH L' m m pp' pk sk t seed sk' P' Hr Hu) as [Ht _]. split; [exact Ht|]. split; [|lia].
      apply (reach_step pk sk (OpUpdate t seed) (Ok None) sk' Hr). cbn [step]. unfold sbind. rewrite Hu. reflexivity.
    + right. left. exists P_PRNG. split; [exact Hu|lia].
  - right. right. split; [apply H2; lia|lia].
Qed.
Lemma present_two pk (sk : seckey EH) t msg : reachable m pp' pk sk ->
  (sec_time sk = t /\ exists s, sign_present m t pp' msg sk = (Ok s, sk) /\ sign_bytes m sk t pp' msg = Ok s)
  \/ (sec_time sk <> t /\ sign_present m t pp' msg sk = (Err E_TIME_STAMP, sk)).
Proof.
  intros Hr. pose proof (LH L H Q HH HQ) as L'. pose proof (Hpp' pp Hpp H Q) as P'.
  destruct (reachable_good L' m pp' pk sk P' Hr) as (x & _ & _ & Hg & Hcs). pose proof (sign_present_cases L' m pp' x sk t msg P' Hcs Hg) as Hc.
  destruct (N.eqb_spec (sec_time sk) t) as [He|Hn]; [left|right; auto]. split; [exact He|]. destruct Hc as (s & Hs & _). exists s. split; [exact Hs|].
  unfold sign_present, sbind, sget, slift in Hs. rewrite (proj2 (N.eqb_eq _ _) He) in Hs. cbn [negb] in Hs. congruence.
Qed.
Lemma reload_same pk (sk : seckey EH) c : reachable m pp' pk sk -> reload c sk = (Ok tt, sk).
Proof.
  intros Hr. pose proof (LH L H Q HH HQ) as L'. pose proof (Hpp' pp Hpp H Q) as P'.
  apply (reload_wf L'), (reachable_sk_representable EH L' m pp' pk sk P' Hdep Hr).
Qed.
Lemma last_64 : last_time d < 4294967296.
Proof. unfold last_time, pow2. pose proof (N.pow_le_mono_r 2 (N.of_nat d) 32 ltac:(lia) ltac:(lia)). pose proof (N.pow_nonzero 2 (N.of_nat d) ltac:(lia)). change (2 ^ 32) with 4294967296 in *. lia. Qed.

Lemma enote_nil {A} (o : option (A * list event)) : enote [] o = o.
Proof. destruct o as [[a es]|]; reflexivity. Qed.

Lemma same_run pk : forall f (sk : seckey EH), reachable m pp' pk sk ->
  code_run H Q m pp sk (by_two d (sec_time sk) f) = iface_run H Q m pp sk f.
Proof.
  induction f as [msg s l|k|o k IH|b k IH|msg cs k IH]; intros sk Hr.
  - reflexivity.
  - reflexivity.
  - destruct o as [t seed|t msg seed|t msg|t msg seed|c].
    + cbn [by_two code_run iface_run step]. unfold sbind. destruct (update_three pk sk t seed Hr) as [(sk' & Hu & Ht & Hr' & _)|[(p & Hu & _)|[Hu _]]].
      * rewrite Hu. cbn [sret is_ok res_map option_map given]. rewrite enote_nil. rewrite <- Ht at 1. apply IH, Hr'.
      * rewrite Hu. cbn [is_ok res_map given]. rewrite enote_nil. apply IH, Hr.
      * rewrite Hu. cbn [is_ok res_map given]. rewrite enote_nil. apply IH, Hr.
    + cbn [by_two iface_run step]. unfold sign, sbind, sget, slift. destruct (t <? sec_time sk) eqn:Q1.
      { cbn [res_map given]. rewrite enote_nil. apply IH, Hr. }
      destruct (sec_time sk <? t) eqn:Q2.
      * cbn [code_run]. destruct (update_three pk sk t seed Hr) as [(sk' & Hu & Ht & Hr' & _)|[(p & Hu & _)|[Hu _]]].
        -- rewrite Hu. cbn [code_run]. destruct (present_two pk sk' t msg Hr') as [(_ & s & Hs & Hb)|[Hn _]]; [|contradiction]. rewrite Hs, Hb. cbn [is_ok sret given res_map option_map]. f_equal.
           rewrite <- Ht at 1. apply IH, Hr'.
        -- rewrite Hu. cbn [given res_map]. rewrite enote_nil. apply IH, Hr.
        -- rewrite Hu. cbn [given res_map]. rewrite enote_nil. apply IH, Hr.
      * cbn [code_run]. destruct (present_two pk sk t msg Hr) as [(_ & s & Hs & Hb)|[Hn _]]; [|lia]. unfold sret. rewrite Hs, Hb. cbn [is_ok given res_map option_map]. f_equal. apply IH, Hr.
    + cbn [by_two code_run iface_run step]. unfold sbind. destruct (present_two pk sk t msg Hr) as [(_ & s & Hs & Hb)|[Hn Hs]]; rewrite Hs; cbn [sret is_ok given res_map option_map]; f_equal; apply IH, Hr.
    + cbn [by_two iface_run step]. unfold sign_then_update, sbind, sget, slift. destruct (N.eqb_spec t (sec_time sk)) as [He|Hn].
      * rewrite (proj2 (N.eqb_eq (sec_time sk) t)) by (symmetry; exact He). cbn [negb orb].
        destruct (present_two pk sk t msg Hr) as [(_ & s & Hs & Hb)|[Hn _]]; [|congruence]. rewrite Hb. pose proof last_64.
        destruct (update_three pk sk (t + 1) seed Hr) as [(sk' & Hu & Ht & Hr' & Hl)|[(p & Hu & Hl)|[Hu Hl]]].
        -- replace (add64 m t 1) with (Ok (t + 1)) by (unfold add64; replace (t + 1 <? two64) with true by (unfold two64; lia); reflexivity).
           replace (t =? last_time d) with false by lia. cbn [code_run]. rewrite Hs, Hu. cbn [is_ok sret given res_map option_map]. f_equal.
           rewrite <- Ht at 1. apply IH, Hr'.
        -- replace (add64 m t 1) with (Ok (t + 1)) by (unfold add64; replace (t + 1 <? two64) with true by (unfold two64; lia); reflexivity).
           replace (t =? last_time d) with false by lia. cbn [code_run]. rewrite Hs, Hu. cbn [is_ok given res_map option_map]. f_equal. apply IH, Hr.
        -- pose proof (LH L H Q HH HQ) as L'. pose proof (Hpp' pp Hpp H Q) as P'.
           destruct (reachable_good L' m pp' pk sk P' Hr) as (x & _ & _ & Hg & _). pose proof (gsk_time _ _ _ Hg) as Hti. change (pp_depth pp') with d in Hti.
           replace (add64 m t 1) with (Ok (t + 1)) by (unfold add64; replace (t + 1 <? two64) with true by (unfold two64; lia); reflexivity).
           replace (t =? last_time d) with true by lia. rewrite Hu. cbn [given res_map]. rewrite enote_nil. apply IH, Hr.
      * replace (sec_time sk =? t) with false by lia. cbn [negb orb given res_map]. rewrite enote_nil. apply IH, Hr.
    + cbn [by_two iface_run step]. unfold sbind. rewrite (reload_same pk sk c Hr). cbn [sret given res_map option_map]. rewrite enote_nil. apply IH, Hr.
  - cbn [by_two code_run iface_run]. apply IH, Hr.
  - cbn [by_two code_run iface_run]. apply IH, Hr.
Qed.
End Same.

Lemma same_game : forall (E : env) (L : env_laws E) (pp : pubparam E) H Q m seed tb adv,
  pp_ok pp -> (pp_depth pp <= 32)%nat ->
  (forall b, length (H b) = 64%nat /\ are_bytes (H b)) -> (forall msg cs, g1_insub (Q msg cs) = true) ->
  iwins H Q m pp seed tb adv <-> awins H Q m pp seed tb (two_calls (pp_depth pp) adv).
Proof.
  intros E L pp H Q m seed tb adv Hpp Hd HH HQ. pose proof (LH L H Q HH HQ) as L'. pose proof (Hpp' pp Hpp H Q) as P'.
  assert (R : forall pk sk pop, @key_gen (code_env E H Q) seed (cv_pp pp) = Ok (pk, sk, pop) ->
    code_run H Q m pp sk (two_calls (pp_depth pp) adv pp (uv_pk pk) (uv_pop pop)) = iface_run H Q m pp sk (adv pp (uv_pk pk) (uv_pop pop))).
  { intros pk sk pop Hk. unfold two_calls.
    assert (Hr : reachable m (cv_pp pp) pk sk) by (exists seed, sk, pop, []; split; [exact Hk|reflexivity]).
    rewrite <- (same_run L pp Hpp Hd H Q m HH HQ pk _ sk Hr). f_equal. f_equal. symmetry. exact (proj1 (keygen_fields _ L' _ _ _ _ _ Hk)). }
  split; intros (pk & sk & pop & msg & s & l & ev & Hk & Hrun & Hrest); exists pk, sk, pop, msg, s, l, ev; (split; [exact Hk|]; split; [|exact Hrest]).
  - rewrite (R pk sk pop Hk). exact Hrun.
  - rewrite <- (R pk sk pop Hk). exact Hrun.
Qed.

Lemma drawn_bytes {E} (g : G1 E) d cs tb bx adv n nb nk nu ls q p y ys hs zs seed A B ks us o :
  hash_value bx -> fcoins_any d n nb nk nu ls q p (y, ys, hs, zs, (seed, A, B, ks, us)) -> sampled g d cs tb bx adv (y, ys, hs, zs, (seed, A, B, ks, us)) = Some o ->
  forall b, length (sampled_hash hs (o_tbl o) (o_calls o) b) = 64%nat /\ are_bytes (sampled_hash hs (o_tbl o) (o_calls o) b).
Proof.
  intros Hbx (Hy & _ & [_ Hhs] & _ & _ & [_ HA] & [_ HB] & [_ Hks] & [_ Hus]) Hs b. unfold sampled in Hs.
  set (pp := exp_params g d cs y ys) in *. set (pts := map (fun e => g1_mul e g) zs) in *. set (pk := PubKey cs (g2_mul (scalar_of bx) g2_one)) in *.
  destruct (s_init cs pk seed bx A B ks us) as [[w cl]|] eqn:Hi; [|discriminate Hs]. apply add_some in Hs as (o' & Hs & He). rewrite He. cbn [o_tbl o_calls app].
  destruct (init_values pp seed bx A B ks us w cl pk Hi Hbx HA HB Hks Hus) as [V1 So].
  pose proof (s_run_values pp (scalar_of bx) tb hs pts _ _ _ Hs So) as V2.
  apply (sampled_value hs (o_tbl o') (cl ++ o_calls o') b Hhs), Forall_app; split; assumption.
Qed.
Lemma iface_all_coins : forall (E : env) (L : env_laws E) m (g : G1 E) d cs tb bx b adv n nb nk nu ls q p ws,
  g1_insub g = true -> (1 <= d <= 32)%nat -> (cs = 0 \/ cs = 1) -> (length bx = 64%nat /\ are_bytes bx) -> (32 <= ls)%nat -> (1 <= q)%nat ->
  NoDup ws -> Forall (fun z => fcoins_any d n nb nk nu ls q p z /\ iwins_or m g d cs tb bx adv z) ws ->
  exists tx i zs, 1 <= tx <= last_time d /\ (i < q)%nat
    /\ N.of_nat (length ws) <= last_time d * N.of_nat q * N.of_nat (length zs) + (scalars_lost d n nb nk nu ls q p + clean_lost d n nb nk nu ls q p)
    /\ NoDup zs
    /\ Forall (fun z => scoins_ok d n nb nk nu ls q p z
                        /\ fsolve (challenge_for g d (scalar_of bx) b) d cs tx i tb (two_calls d adv) z = Some (solution g d (scalar_of bx) b)) zs.
Proof.
  intros E L m g d cs tb bx b adv n nb nk nu ls q p ws Hg Hd Hcs Hbx Hls Hq Hn Hf.
  apply (clean_all_coins E L m g d cs tb bx b (two_calls d adv) n nb nk nu ls q p ws Hg ltac:(lia) Hcs Hbx Hls Hq Hn).
  eapply Forall_impl; [|exact Hf]. intros z [Hz Hw]. split; [exact Hz|]. destruct z as [[[[y ys] hs] zs] [[[[seed A] B] ks] us]]. destruct Hw as (o & R & W). exists o. split; [exact R|]. intros C. specialize (W C).
  pose proof Hz as (_ & [Hys _] & _). pose proof (exp_params_ok L g d cs y ys Hg ltac:(lia) Hys) as Hpp.
  apply (same_game E L (exp_params g d cs y ys) _ _ m seed tb adv Hpp ltac:(cbn [exp_params pp_depth]; lia)); [| |exact W].
  - exact (drawn_bytes g d cs tb bx (two_calls d adv) n nb nk nu ls q p y ys hs zs seed A B ks us o Hbx Hz R).
  - intros msg c. apply (points_insub L), Hg.
Qed.
