(** Lemmas behind Properties_Sig.v: signing. *)
From Coq Require Import Sorting.Sorted.
From Verif Require Import Base Env NMod GroupFacts Time SpecTime TimeFacts TimeProps Hkdf Prng SpecPrng PrngFacts
  SubKey SecretKey Keys Sig IO Serdes Api SpecKey SubKeyFacts SpecUpdate UpdateFacts KeyFacts SpecSer IOFacts SerFacts
  HistoryFacts SpecSig KeyProps.
From Coq Require Import ZifyBool ZifyNat ZifyN.
Local Open Scope N_scope.
Local Arguments N.add : simpl never.
Local Arguments N.mul : simpl never.
Local Arguments N.sub : simpl never.
Local Arguments pow2 : simpl never.

(** * C16 *)
Lemma step_signature {E} (L : env_laws E) m m' (pp : pubparam E) x o sk s sk' cs :
  pp_ok pp -> valid_cs (pp_cs pp) = true -> good_sk pp x sk -> step m pp o sk = (Ok (Some s), sk') ->
  exists t msg, signs o = Some (t, msg) /\ verify m' s (PubKey cs (g2_mul x (pp_g2 pp))) pp msg = Ok true
    /\ sig_time s = t /\ sig_cs s = pp_cs pp.
Proof.
  intros Hpp Hcs Hg H. pose proof (step_good L m pp x o sk Hpp Hcs Hg) as [_ Hs]. rewrite H in Hs. cbn [fst snd] in Hs.
  assert (Hgs : forall t msg, good_sig pp x t msg s -> verify m' s (PubKey cs (g2_mul x (pp_g2 pp))) pp msg = Ok true
    /\ sig_time s = t /\ sig_cs s = pp_cs pp).
  { intros t msg Hgs. split; [apply (good_sig_verifies L m' pp x t msg s cs); auto|apply (good_sig_fields pp x t msg s Hgs)]. }
  destruct o as [t seed|t msg seed|t msg|t msg seed|c]; cbn [signs]; try contradiction; exists t, msg; (split; [reflexivity|]);
    apply Hgs; tauto.
Qed.

Lemma history_signatures_verify : forall (E : env) (L : env_laws E) m m' (pp : pubparam E) seed pk sk pop ops,
  pp_ok pp -> key_gen seed pp = Ok (pk, sk, pop) ->
  Forall2 (fun o r => match r with
                      | Ok (Some s) => exists t msg, signs o = Some (t, msg) /\ verify m' s pk pp msg = Ok true
                                                     /\ sig_time s = t /\ sig_cs s = pp_cs pp
                      | _ => True
                      end) ops (fst (run m pp ops sk)).
Proof.
  intros E L m m' pp seed pk sk pop ops Hpp Hk.
  destruct (key_gen_good L pp seed pk sk pop Hpp Hk) as (x & _ & -> & Hg & _ & Hcs). clear Hk seed pop.
  revert sk Hg. induction ops as [|o ops IH]; intros sk Hg; [constructor|]. cbn [run].
  pose proof (step_good L m pp x o sk Hpp Hcs Hg) as [Hg' _].
  destruct (step m pp o sk) as [r sk1] eqn:Es. cbn [fst snd] in Hg'. specialize (IH sk1 Hg').
  destruct (run m pp ops sk1) as [rs sk2]. cbn [fst] in *. constructor; [|exact IH].
  destruct r as [[s|]| |]; auto. apply (step_signature L m m' pp x o sk s sk1); auto.
Qed.

(** * C17 *)
Lemma sign_outcomes : forall (E : env) (L : env_laws E) m m' (pp : pubparam E) pk sk t msg seed,
  pp_ok pp -> reachable m pp pk sk ->
  (forall i, (1 <= i < pp_depth pp)%nat -> draws (sha512 E) i (spec_reseed sk seed) <> sec_prng sk) ->
  (sec_time sk <= t <= last_time (pp_depth pp) ->
     exists s sk', sign m' t pp msg seed sk = (Ok s, sk') /\ sec_time sk' = t)
  /\ (~ (sec_time sk <= t <= last_time (pp_depth pp)) -> sign m' t pp msg seed sk = (Err E_TIME_STAMP, sk)).
Proof.
  intros E L m m' pp pk sk t msg seed Hpp Hr Hn. destruct (reachable_good L m pp pk sk Hpp Hr) as (x & _ & _ & Hg & Hcs).
  pose proof (sign_cases L m' pp x sk t msg seed Hpp Hcs Hg) as H. pose proof (gsk_time _ _ _ Hg).
  destruct (N.eqb_spec (sec_time sk) t) as [He|Hne].
  - destruct H as (s & Hs & _). split; [|lia]. intros _. exists s, sk. auto.
  - unfold in_range in H. destruct ((sec_time sk <? t) && (t <=? last_time (pp_depth pp))) eqn:Er.
    + split; [|lia]. intros _. destruct H as [(s & sk' & Hs & _ & _ & _ & Ht)|[_ Hno]]; [eauto|]. destruct (Hno Hn).
    + split; [lia|]. intros _. exact H.
Qed.

Lemma sign_no_other_outcome : forall (E : env) (L : env_laws E) m m' (pp : pubparam E) pk sk t msg seed,
  pp_ok pp -> reachable m pp pk sk -> sec_time sk <= t <= last_time (pp_depth pp) ->
  (exists s sk', sign m' t pp msg seed sk = (Ok s, sk') /\ sec_time sk' = t)
  \/ (sign m' t pp msg seed sk = (Panic P_PRNG, sk)
      /\ exists i, (1 <= i < pp_depth pp)%nat /\ draws (sha512 E) i (spec_reseed sk seed) = sec_prng sk).
Proof.
  intros E L m m' pp pk sk t msg seed Hpp Hr Ht. destruct (reachable_good L m pp pk sk Hpp Hr) as (x & _ & _ & Hg & Hcs).
  pose proof (sign_cases L m' pp x sk t msg seed Hpp Hcs Hg) as H. pose proof (gsk_time _ _ _ Hg).
  destruct (N.eqb_spec (sec_time sk) t) as [He|Hne].
  - destruct H as (s & Hs & _). left. exists s, sk. auto.
  - unfold in_range in H. replace ((sec_time sk <? t) && (t <=? last_time (pp_depth pp))) with true in H by lia.
    destruct H as [(s & sk' & Hs & _ & _ & _ & Ht')|[Hs _]]; [left; eauto|right]. split; [exact Hs|].
    destruct (update_outcomes E L m m' pp pk sk t seed Hpp Hr) as [Hu _]. destruct (Hu ltac:(lia)) as [(sk' & Hu')|[_ Hd]]; [|exact Hd].
    exfalso. unfold sign, sbind, sget, slift, sret in Hs. replace (t <? sec_time sk) with false in Hs by lia.
    replace (sec_time sk <? t) with true in Hs by lia. rewrite Hu' in Hs.
    pose proof (update_cases L m' pp x sk t seed Hpp Hg) as Hc. unfold in_range in Hc.
    replace ((sec_time sk <? t) && (t <=? last_time (pp_depth pp))) with true in Hc by lia.
    destruct Hc as [(sk1 & Hu1 & Hg1 & Ht1)|[Hp _]]; rewrite Hu' in *; [|discriminate].
    injection Hu1 as <-. destruct (sign_bytes_ok L m' pp x sk' msg Hpp Hcs Hg1) as (s & Hsb & _). rewrite Ht1 in Hsb.
    rewrite Hsb in Hs. discriminate.
Qed.

Lemma sign_present_outcomes : forall (E : env) (L : env_laws E) m m' (pp : pubparam E) pk sk t msg,
  pp_ok pp -> reachable m pp pk sk ->
  (is_ok (fst (sign_present m' t pp msg sk)) = true <-> t = sec_time sk)
  /\ (t <> sec_time sk -> sign_present m' t pp msg sk = (Err E_TIME_STAMP, sk)).
Proof.
  intros E L m m' pp pk sk t msg Hpp Hr. destruct (reachable_good L m pp pk sk Hpp Hr) as (x & _ & _ & Hg & Hcs).
  pose proof (sign_present_cases L m' pp x sk t msg Hpp Hcs Hg) as H.
  destruct (N.eqb_spec (sec_time sk) t) as [He|Hne].
  - destruct H as (s & -> & _). cbn. split; [split; auto|]. congruence.
  - rewrite H. cbn. split; [split; [discriminate|congruence]|auto].
Qed.

Lemma sign_past_rejected : forall (E : env) m (pp : pubparam E) sk t msg seed,
  t < sec_time sk -> sign m t pp msg seed sk = (Err E_TIME_STAMP, sk)
                     /\ sign_present m t pp msg sk = (Err E_TIME_STAMP, sk)
                     /\ sign_then_update m t pp msg seed sk = (Err E_TIME_STAMP, sk).
Proof.
  intros E m pp sk t msg seed H. unfold sign, sign_present, sign_then_update, sbind, sget, slift.
  replace (t <? sec_time sk) with true by lia. replace (sec_time sk =? t) with false by lia. auto.
Qed.

(** * C18 *)
Lemma sign_is_update_then_sign : forall (E : env) (L : env_laws E) m m' (pp : pubparam E) pk sk t msg seed,
  pp_ok pp -> reachable m pp pk sk -> sec_time sk < t ->
  sign m' t pp msg seed sk = (do! _ <- update m' pp t seed; sign_present m' t pp msg) sk.
Proof.
  intros E L m m' pp pk sk t msg seed Hpp Hr Ht. destruct (reachable_good L m pp pk sk Hpp Hr) as (x & _ & _ & Hg & Hcs).
  unfold sign, sign_present, sbind, sget, slift. replace (t <? sec_time sk) with false by lia.
  replace (sec_time sk <? t) with true by lia.
  destruct (update m' pp t seed sk) as [[u|e|p] sk'] eqn:Hu; [|reflexivity|reflexivity].
  destruct (update_result_shape E L m m' pp pk sk t seed sk' Hpp Hr ltac:(destruct u; exact Hu)) as [-> _].
  rewrite N.eqb_refl. reflexivity.
Qed.

Lemma update_keeps_cs {E} m (pp : pubparam E) t seed sk o sk' :
  update m pp t seed sk = (o, sk') -> sec_cs sk' = sec_cs sk.
Proof.
  unfold update, sbind, sget, slift, sput. intros H.
  repeat match type of H with
  | context [match ?e with _ => _ end] => destruct e; try (injection H as _ <-; reflexivity)
  end.
Qed.

Lemma sign_any_key : forall (E : env) m (pp : pubparam E) sk t msg seed,
  sec_time sk < t -> valid_cs (pp_cs pp) = true ->
  let a := sign m t pp msg seed sk in
  let b := (do! _ <- update m pp t seed; sign_present m t pp msg) sk in
  snd a = snd b /\ (fst a = fst b \/ (fst a = Panic P_TIME /\ fst b = Err E_TIME_STAMP)).
Proof.
  intros E m pp sk t msg seed Ht Hcs. cbv zeta. unfold sign, sign_present, sbind, sget, slift.
  replace (t <? sec_time sk) with false by lia. replace (sec_time sk <? t) with true by lia.
  destruct (update m pp t seed sk) as [[u|e|p] sk'] eqn:Hu; [|auto|auto].
  destruct (N.eqb_spec (sec_time sk') t) as [He|Hne]; cbn [negb fst snd]; [auto|]. split; [reflexivity|]. right. split; [|reflexivity].
  unfold sign_bytes. rewrite Hcs. cbn [negb].
  assert (Hc : sec_cs sk' = pp_cs pp).
  { destruct (N.eq_dec (sec_cs sk) (pp_cs pp)) as [Hc|Hc]; [|rewrite (update_cs_err m pp sk t seed Hc) in Hu; discriminate].
    apply update_keeps_cs in Hu. congruence. }
  rewrite Hc, N.eqb_refl. cbn [negb]. replace (sec_time sk' =? t) with false by lia. reflexivity.
Qed.

(** * C19 *)
Lemma sign_present_state {E} m t (pp : pubparam E) msg sk : snd (sign_present m t pp msg sk) = sk.
Proof. unfold sign_present, sbind, sget, slift. destruct (negb _); reflexivity. Qed.

Lemma sign_present_read_only : forall (E : env) m (pp : pubparam E) sk ops1 t msg ops2,
  let r := run m pp (ops1 ++ OpSignPresent t msg :: ops2) sk in
  let r0 := run m pp (ops1 ++ ops2) sk in
  snd r = snd r0
  /\ fst r0 = firstn (length ops1) (fst r) ++ skipn (length ops1 + 1) (fst r).
Proof.
  intros E m pp sk ops1 t msg ops2. cbv zeta. rewrite !run_app. cbn [fst snd].
  assert (Hl : length (fst (run m pp ops1 sk)) = length ops1).
  { clear. revert sk. induction ops1 as [|o l IH]; intros sk; [reflexivity|]. cbn [run].
    destruct (step m pp o sk) as [r s]. specialize (IH s). destruct (run m pp l s). cbn in *. lia. }
  cbn [run]. assert (Hs : snd (step m pp (OpSignPresent t msg) (snd (run m pp ops1 sk))) = snd (run m pp ops1 sk)).
  { cbn [step]. unfold sbind. pose proof (sign_present_state m t pp msg (snd (run m pp ops1 sk))) as H.
    destruct (sign_present m t pp msg _) as [[a|e|p] s]; cbn in *; exact H. }
  destruct (step m pp (OpSignPresent t msg) (snd (run m pp ops1 sk))) as [r s]. cbn [snd] in Hs. subst s.
  destruct (run m pp ops2 (snd (run m pp ops1 sk))) as [rs sk2]. cbn [fst snd]. split; [reflexivity|].
  rewrite <- Hl, firstn_app, firstn_all, Nat.sub_diag. cbn [firstn]. rewrite app_nil_r, skipn_app.
  replace (length (fst (run m pp ops1 sk)) + 1 - length (fst (run m pp ops1 sk)))%nat with 1%nat by lia.
  rewrite (skipn_all2 (n := length (fst (run m pp ops1 sk)) + 1)) by lia. reflexivity.
Qed.

(** Every successful signing call uses the key as it is at the requested time. *)
Lemma step_sign_source {E} (L : env_laws E) m (pp : pubparam E) x o sk s sk' t msg :
  pp_ok pp -> valid_cs (pp_cs pp) = true -> good_sk pp x sk -> signs o = Some (t, msg) ->
  step m pp o sk = (Ok (Some s), sk') ->
  exists k, sign_bytes m k t pp msg = Ok s /\ sec_time sk <= t <= sec_time sk'
    /\ (sec_time sk = t -> k = sk) /\ (sec_time sk' = t -> k = sk').
Proof.
  intros Hpp Hcs Hg Ho H. destruct o as [t0 seed|t0 msg0 seed|t0 msg0|t0 msg0 seed|c]; cbn [signs] in Ho; try discriminate;
    injection Ho as -> ->; cbn [step] in H; unfold sbind, sret in H.
  - pose proof (sign_cases L m pp x sk t msg seed Hpp Hcs Hg) as Hc.
    destruct (sign m t pp msg seed sk) as [[a|e|p] s1] eqn:Es; try discriminate. injection H as -> ->.
    unfold sign, sbind, sget, slift, sret in Es.
    destruct (N.eqb_spec (sec_time sk) t) as [He|Hne].
    + destruct Hc as (s' & Hc & _). injection Hc as <- ->.
      replace (t <? sec_time sk) with false in Es by lia. replace (sec_time sk <? t) with false in Es by lia.
      exists sk. injection Es as Es. split; [exact Es|]. split; [lia|auto].
    + destruct (in_range pp sk t) eqn:Er; [|discriminate]. unfold in_range in Er.
      destruct Hc as [(s' & sk1 & Hc & _ & Hu & _ & Ht)|[Hc _]]; [|discriminate]. injection Hc as <- <-.
      replace (t <? sec_time sk) with false in Es by lia. replace (sec_time sk <? t) with true in Es by lia.
      rewrite Hu in Es. injection Es as Es. exists sk'. split; [exact Es|]. split; [lia|]. split; [lia|auto].
  - pose proof (sign_present_cases L m pp x sk t msg Hpp Hcs Hg) as Hc.
    destruct (sign_present m t pp msg sk) as [[a|e|p] s1] eqn:Es; try discriminate. injection H as -> ->.
    unfold sign_present, sbind, sget, slift in Es.
    destruct (N.eqb_spec (sec_time sk) t) as [He|Hne]; [|discriminate]. cbn [negb] in Es. injection Es as Es <-.
    exists sk. split; [exact Es|]. split; [lia|auto].
  - pose proof (sign_then_update_cases L m pp x sk t msg seed Hpp Hcs Hg) as Hc.
    destruct (sign_then_update m t pp msg seed sk) as [[a|e|p] s1] eqn:Es; try discriminate. injection H as -> ->.
    destruct (N.eqb_spec (sec_time sk) t) as [He|Hne]; [|discriminate].
    destruct (t <? last_time (pp_depth pp)); [|discriminate].
    destruct Hc as [(s' & sk1 & Hc & _ & Hp & _ & _ & Ht)|[Hc _]]; [|discriminate]. injection Hc as <- <-.
    unfold sign_present, sbind, sget, slift in Hp. rewrite He, N.eqb_refl in Hp. cbn [negb] in Hp. injection Hp as Hp.
    exists sk. split; [exact Hp|]. split; [lia|]. split; [auto|lia].
Qed.

Lemma same_request_same_signature : forall (E : env) (L : env_laws E) m (pp : pubparam E) pk sk o1 s1 sk1 ops o2 s2 sk2 t msg,
  pp_ok pp -> reachable m pp pk sk ->
  signs o1 = Some (t, msg) -> step m pp o1 sk = (Ok (Some s1), sk1) ->
  signs o2 = Some (t, msg) -> step m pp o2 (snd (run m pp ops sk1)) = (Ok (Some s2), sk2) ->
  s1 = s2.
Proof.
  intros E L m pp pk sk o1 s1 sk1 ops o2 s2 sk2 t msg Hpp Hr Ho1 H1 Ho2 H2.
  destruct (reachable_good L m pp pk sk Hpp Hr) as (x & _ & _ & Hg & Hcs).
  assert (Hr1 : reachable m pp pk sk1).
  { pose proof (reachable_run m pp pk sk [o1] Hr) as H. cbn [run] in H. rewrite H1 in H. exact H. }
  destruct (reachable_good L m pp pk sk1 Hpp Hr1) as (x1 & _ & _ & Hg1 & _).
  pose proof (run_good L m pp x1 ops sk1 Hpp Hcs Hg1) as Hg2.
  destruct (step_sign_source L m pp x o1 sk s1 sk1 t msg Hpp Hcs Hg Ho1 H1) as (k1 & Hk1 & Ht1 & _ & He1).
  destruct (step_sign_source L m pp x1 o2 _ s2 sk2 t msg Hpp Hcs Hg2 Ho2 H2) as (k2 & Hk2 & Ht2 & He2 & _).
  destruct (history_untouched_or_later E L m pp pk sk1 ops Hpp Hr1) as [Hu|Hu].
  - rewrite Hu in *. rewrite He1 in Hk1 by lia. rewrite He2 in Hk2 by lia. congruence.
  - lia.
Qed.

(** * C20, C21 *)
Lemma one_time_steps {E} (L : env_laws E) m (pp : pubparam E) x o sk :
  pp_ok pp -> valid_cs (pp_cs pp) = true -> good_sk pp x sk -> one_time o ->
  sec_time sk <= sec_time (snd (step m pp o sk))
  /\ forall s, fst (step m pp o sk) = Ok (Some s) ->
     sig_time s = sec_time sk /\ sec_time (snd (step m pp o sk)) = sec_time sk + 1.
Proof.
  intros Hpp Hcs Hg Ho. pose proof (step_good L m pp x o sk Hpp Hcs Hg) as [_ H].
  pose proof (step_untouched_or_later L m pp x o sk Hpp Hcs Hg) as Hm.
  destruct (step m pp o sk) as [r sk']. cbn [fst snd] in *. split; [destruct Hm as [-> |Hm]; lia|].
  intros s ->. destruct o; cbn in Ho, H; try contradiction. destruct H as (Hs & Ht & Ht').
  apply good_sig_fields in Hs as [Hs _]. split; [congruence|lia].
Qed.

Lemma at_most_one_signature : forall (E : env) (L : env_laws E) m (pp : pubparam E) pk sk ops,
  pp_ok pp -> reachable m pp pk sk -> Forall one_time ops ->
  StronglySorted N.lt (sig_times (fst (run m pp ops sk)))
  /\ Forall (fun t => sec_time sk <= t < sec_time (snd (run m pp ops sk))) (sig_times (fst (run m pp ops sk))).
Proof.
  intros E L m pp pk sk ops Hpp Hr Ho. destruct (reachable_good L m pp pk sk Hpp Hr) as (x & _ & _ & Hg & Hcs). clear Hr.
  revert sk Hg. induction Ho as [|o ops Ho _ IH]; intros sk Hg; [split; constructor|]. cbn [run].
  destruct (one_time_steps L m pp x o sk Hpp Hcs Hg Ho) as [Hm Hs].
  pose proof (step_good L m pp x o sk Hpp Hcs Hg) as [Hg' _].
  destruct (step m pp o sk) as [r sk1]. cbn [fst snd] in *. destruct (IH sk1 Hg') as [IH1 IH2].
  assert (Hmono : sec_time sk1 <= sec_time (snd (run m pp ops sk1))).
  { clear -L Hpp Hcs Hg'. revert sk1 Hg'. induction ops as [|o ops IH]; intros sk Hg; [cbn; lia|]. cbn [run].
    pose proof (step_untouched_or_later L m pp x o sk Hpp Hcs Hg) as Hm.
    pose proof (step_good L m pp x o sk Hpp Hcs Hg) as [Hg' _]. destruct (step m pp o sk) as [r sk1]. cbn [fst snd] in *.
    specialize (IH sk1 Hg'). destruct (run m pp ops sk1). cbn [snd] in *. destruct Hm as [<- |Hm]; lia. }
  destruct (run m pp ops sk1) as [rs sk2]. cbn [fst snd] in *. cbn [sig_times flat_map]. fold (sig_times rs).
  assert (Hlater : Forall (fun t => sec_time sk <= t < sec_time sk2) (sig_times rs)).
  { eapply Forall_impl; [|exact IH2]. cbn. intros; lia. }
  destruct r as [[s|]|e|p]; cbn [app]; try (split; [exact IH1|exact Hlater]).
  destruct (Hs s eq_refl) as [Hst Ht1]. split.
  - constructor; [exact IH1|]. eapply Forall_impl; [|exact IH2]. cbn. intros; lia.
  - constructor; [lia|exact Hlater].
Qed.

Lemma sign_then_update_outcomes : forall (E : env) (L : env_laws E) m m' (pp : pubparam E) pk sk t msg seed s sk',
  pp_ok pp -> reachable m pp pk sk -> sign_then_update m' t pp msg seed sk = (Ok s, sk') ->
  t = sec_time sk /\ sec_time sk' = t + 1 /\ sign_present m' t pp msg sk = (Ok s, sk)
  /\ update m' pp (t + 1) seed sk = (Ok tt, sk').
Proof.
  intros E L m m' pp pk sk t msg seed s sk' Hpp Hr H.
  destruct (reachable_good L m pp pk sk Hpp Hr) as (x & _ & _ & Hg & Hcs).
  pose proof (sign_then_update_cases L m' pp x sk t msg seed Hpp Hcs Hg) as Hc. rewrite H in Hc.
  destruct (N.eqb_spec (sec_time sk) t) as [He|Hne]; [|discriminate].
  destruct (t <? last_time (pp_depth pp)); [|discriminate].
  destruct Hc as [(s' & sk1 & Hc & _ & Hp & Hu & _ & Ht)|[Hc _]]; [|discriminate]. injection Hc as <- <-. auto.
Qed.

Lemma sign_then_update_last : forall (E : env) (L : env_laws E) m m' (pp : pubparam E) pk sk msg seed,
  pp_ok pp -> reachable m pp pk sk -> sec_time sk = last_time (pp_depth pp) ->
  sign_then_update m' (sec_time sk) pp msg seed sk = (Err E_TIME_STAMP, sk)
  /\ exists s, sign_present m' (sec_time sk) pp msg sk = (Ok s, sk).
Proof.
  intros E L m m' pp pk sk msg seed Hpp Hr Ht.
  destruct (reachable_good L m pp pk sk Hpp Hr) as (x & _ & _ & Hg & Hcs).
  pose proof (sign_then_update_cases L m' pp x sk (sec_time sk) msg seed Hpp Hcs Hg) as H. rewrite N.eqb_refl in H.
  replace (sec_time sk <? last_time (pp_depth pp)) with false in H by lia. split; [exact H|].
  pose proof (sign_present_cases L m' pp x sk (sec_time sk) msg Hpp Hcs Hg) as H'. rewrite N.eqb_refl in H'.
  destruct H' as (s & Hs & _). eauto.
Qed.

(** * C54 *)
Lemma failed_sign_keeps_key : forall (E : env) (L : env_laws E) m m' (pp : pubparam E) pk sk t msg seed,
  pp_ok pp -> reachable m pp pk sk -> is_ok (fst (sign m' t pp msg seed sk)) = false ->
  snd (sign m' t pp msg seed sk) = sk.
Proof.
  intros E L m m' pp pk sk t msg seed Hpp Hr H.
  destruct (reachable_good L m pp pk sk Hpp Hr) as (x & _ & _ & Hg & Hcs).
  pose proof (sign_cases L m' pp x sk t msg seed Hpp Hcs Hg) as Hc.
  destruct (sec_time sk =? t).
  - destruct Hc as (s & Hc & _). rewrite Hc. reflexivity.
  - destruct (in_range pp sk t).
    + destruct Hc as [(s & sk' & Hc & _)|[Hc _]]; rewrite Hc in *; [discriminate|reflexivity].
    + rewrite Hc. reflexivity.
Qed.
