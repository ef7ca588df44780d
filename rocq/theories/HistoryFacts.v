(** Histories of API calls on keys that come from key generation. *)
From Coq Require Import Sorting.Sorted.
From Verif Require Import Base Env NMod GroupFacts Time SpecTime TimeFacts Hkdf Prng SpecPrng PrngFacts
  SubKey SecretKey Keys Sig IO Serdes Api SpecKey SubKeyFacts SpecUpdate UpdateFacts KeyFacts SpecSer IOFacts SerFacts.
From Coq Require Import ZifyBool ZifyNat ZifyN.
Local Open Scope N_scope.
Local Arguments N.add : simpl never.
Local Arguments N.mul : simpl never.
Local Arguments N.sub : simpl never.
Local Arguments pow2 : simpl never.

(** * The draws of one update *)
Lemma iter_S {A} (f : A -> A) i a : Nat.iter (S i) f a = Nat.iter i f (f a).
Proof. induction i as [|i IH]; [reflexivity|]. cbn [Nat.iter] in *. unfold Nat.iter in *. cbn in *. rewrite IH. reflexivity. Qed.
Lemma draws_S H i g : draws H (S i) g = draws H i (spec_next H g DOM_SEP_SK_UPDATE).
Proof. exact (iter_S (fun g => spec_next H g DOM_SEP_SK_UPDATE) i g). Qed.

Lemma spec_fresh_false_none {E} (pp : pubparam E) x r old : forall l g,
  spec_fresh pp x r old false l g = None ->
  exists i, (1 <= i <= length l)%nat /\ draws (sha512 E) i g = old.
Proof.
  induction l as [|tv l IH]; intros g H; [discriminate|]. cbn [spec_fresh] in H. cbv zeta in H.
  destruct (prng_eqb _ old) eqn:Ep.
  - exists 1%nat. split; [cbn; lia|]. apply bytes_eqb_eq in Ep. exact Ep.
  - destruct (spec_fresh pp x r old false l _) as [[? ?]|] eqn:E0; [discriminate|].
    apply IH in E0 as (i & Hi & Hd). exists (S i). cbn [length]. split; [lia|]. rewrite draws_S. exact Hd.
Qed.
Lemma spec_fresh_false_some {E} (pp : pubparam E) x r old : forall l g ks g',
  spec_fresh pp x r old false l g = Some (ks, g') -> g' = draws (sha512 E) (length l) g.
Proof.
  induction l as [|tv l IH]; intros g ks g' H; cbn [spec_fresh] in H.
  - injection H as _ <-. reflexivity.
  - cbv zeta in H. destruct (prng_eqb _ old); [discriminate|].
    destruct (spec_fresh pp x r old false l _) as [[? ?]|] eqn:E0; [|discriminate].
    injection H as _ <-. apply IH in E0. cbn [length]. rewrite draws_S. exact E0.
Qed.
Lemma spec_fresh_none {E} (pp : pubparam E) x r old l g :
  spec_fresh pp x r old true l g = None ->
  exists i, (1 <= i < length l)%nat /\ draws (sha512 E) i g = old.
Proof.
  destruct l as [|tv l]; [discriminate|]. cbn [spec_fresh]. intros H.
  destruct (spec_fresh pp x r old false l g) as [[? ?]|] eqn:E0; [discriminate|].
  apply spec_fresh_false_none in E0 as (i & Hi & Hd). exists i. cbn [length]. split; [lia|exact Hd].
Qed.
Lemma spec_fresh_some {E} (pp : pubparam E) x r old l g ks g' :
  spec_fresh pp x r old true l g = Some (ks, g') -> g' = draws (sha512 E) (length l - 1) g.
Proof.
  destruct l as [|tv l]; cbn [spec_fresh]; intros H.
  - injection H as _ <-. reflexivity.
  - destruct (spec_fresh pp x r old false l g) as [[? ?]|] eqn:E0; [|discriminate].
    injection H as _ <-. apply spec_fresh_false_some in E0. cbn [length]. rewrite Nat.sub_succ, Nat.sub_0_r. exact E0.
Qed.

(** * One update of a good key *)
Lemma update_good_panic {E} (L : env_laws E) m (pp : pubparam E) x sk tar seed p sk' :
  pp_ok pp -> good_sk pp x sk -> update m pp tar seed sk = (Panic p, sk') ->
  p = P_PRNG /\ sk' = sk /\ ~ no_repeat (pp_depth pp) sk seed.
Proof.
  intros Hpp Hg Hu. pose proof (ppo_depth pp Hpp) as Hd.
  destruct (N.lt_ge_cases (sec_time sk) tar) as [H1|H1].
  2:{ rewrite update_time_err in Hu by (auto; apply Hg). discriminate. }
  destruct (N.le_gt_cases tar (last_time (pp_depth pp))) as [H2|H2].
  2:{ rewrite update_time_err in Hu by (auto; apply Hg). discriminate. }
  destruct (update_good L m pp x sk tar seed Hpp Hg (conj H1 H2)) as (pre & ta & va & r & post & Hsp & [[_ Hu']|[Hlt H]]).
  - rewrite Hu' in Hu. discriminate.
  - destruct H as (tv & gpre & gpost & Htv & Hgl & _ & _ & _ & _ & Hu'). rewrite Hu' in Hu.
    destruct (spec_fresh _ _ _ _ _ _ _) as [[ks g']|] eqn:Ef; [discriminate|]. injection Hu as <- <-.
    split; [reflexivity|]. split; [reflexivity|]. intros Hnr.
    apply spec_fresh_none in Ef as (i & Hi & He). apply (Hnr i); [|exact He].
    pose proof (tv_init_node m (pp_depth pp) tar tv ltac:(lia) Htv) as [Ht Hn]. destruct tv as [t v]. cbn [tv_time tv_vec] in *. subst t.
    destruct (gamma_list_spec m (pp_depth pp) tar v ltac:(lia) Hn) as (pl & Hg' & _ & _ & Hlen & _).
    rewrite Hg' in Hgl. injection Hgl as Hgl. apply (f_equal (@length _)) in Hgl.
    rewrite map_length, app_length in Hgl. lia.
Qed.

(** All outcomes of an update of a good key. *)
Definition in_range {E} (pp : pubparam E) (sk : seckey E) (t : N) : bool :=
  (sec_time sk <? t) && (t <=? last_time (pp_depth pp)).

Lemma update_cases {E} (L : env_laws E) m (pp : pubparam E) x sk tar seed :
  pp_ok pp -> good_sk pp x sk ->
  if in_range pp sk tar
  then (exists sk', update m pp tar seed sk = (Ok tt, sk') /\ good_sk pp x sk' /\ sec_time sk' = tar)
       \/ (update m pp tar seed sk = (Panic P_PRNG, sk) /\ ~ no_repeat (pp_depth pp) sk seed)
  else update m pp tar seed sk = (Err E_TIME_STAMP, sk).
Proof.
  intros Hpp Hg. unfold in_range. destruct ((sec_time sk <? tar) && _) eqn:Er.
  - destruct (update_good_ok L m pp x sk tar seed Hpp Hg ltac:(lia)) as [H|H]; [left; exact H|].
    right. split; [exact H|]. apply (update_good_panic L m pp x sk tar seed P_PRNG sk Hpp Hg H).
  - apply update_time_err; [apply Hpp|apply Hg|lia].
Qed.

(** * Signing *)
(** [good_sig]: what a signature of a good key at time [t] on [msg] is. *)
Definition good_sig {E} (pp : pubparam E) (x t : N) (msg : bytes) (s : signature E) : Prop :=
  exists v k, node_at (pp_depth pp) t v /\ s = honest_sig pp x t v (msg_scalar pp msg) k.

Lemma sign_bytes_ok {E} (L : env_laws E) m (pp : pubparam E) x sk msg :
  pp_ok pp -> valid_cs (pp_cs pp) = true -> good_sk pp x sk ->
  exists s, sign_bytes m sk (sec_time sk) pp msg = Ok s /\ good_sig pp x (sec_time sk) msg s.
Proof.
  intros Hpp Hcs Hg. destruct (sign_bytes_good L m pp x sk msg Hpp Hcs Hg) as (v & r & Hn & _ & Hs).
  eexists. split; [exact Hs|]. exists v. eexists. split; [exact Hn|reflexivity].
Qed.

Lemma good_sig_verifies {E} (L : env_laws E) m (pp : pubparam E) x t msg s cs :
  pp_ok pp -> valid_cs (pp_cs pp) = true -> good_sig pp x t msg s ->
  verify m s (PubKey cs (g2_mul x (pp_g2 pp))) pp msg = Ok true.
Proof. intros Hpp Hcs (v & k & Hn & ->). apply (verify_honest L); auto. Qed.

Lemma good_sig_fields {E} (pp : pubparam E) x t msg s :
  good_sig pp x t msg s -> sig_time s = t /\ sig_cs s = pp_cs pp.
Proof. intros (v & k & _ & ->). split; reflexivity. Qed.

Lemma sign_present_cases {E} (L : env_laws E) m (pp : pubparam E) x sk t msg :
  pp_ok pp -> valid_cs (pp_cs pp) = true -> good_sk pp x sk ->
  if sec_time sk =? t
  then exists s, sign_present m t pp msg sk = (Ok s, sk) /\ good_sig pp x t msg s
  else sign_present m t pp msg sk = (Err E_TIME_STAMP, sk).
Proof.
  intros Hpp Hcs Hg. unfold sign_present, sbind, sget, slift. destruct (N.eqb_spec (sec_time sk) t) as [<-|]; cbn [negb].
  - destruct (sign_bytes_ok L m pp x sk msg Hpp Hcs Hg) as (s & -> & Hs). eauto.
  - reflexivity.
Qed.

Lemma sign_cases {E} (L : env_laws E) m (pp : pubparam E) x sk t msg seed :
  pp_ok pp -> valid_cs (pp_cs pp) = true -> good_sk pp x sk ->
  if sec_time sk =? t
  then exists s, sign m t pp msg seed sk = (Ok s, sk) /\ good_sig pp x t msg s
  else if in_range pp sk t
  then (exists s sk', sign m t pp msg seed sk = (Ok s, sk') /\ good_sig pp x t msg s
          /\ update m pp t seed sk = (Ok tt, sk') /\ good_sk pp x sk' /\ sec_time sk' = t)
       \/ (sign m t pp msg seed sk = (Panic P_PRNG, sk) /\ ~ no_repeat (pp_depth pp) sk seed)
  else sign m t pp msg seed sk = (Err E_TIME_STAMP, sk).
Proof.
  intros Hpp Hcs Hg. unfold sign, sbind, sget, slift, sret. destruct (N.eqb_spec (sec_time sk) t) as [<-|Hne].
  - rewrite N.ltb_irrefl. destruct (sign_bytes_ok L m pp x sk msg Hpp Hcs Hg) as (s & -> & Hs). eauto.
  - pose proof (update_cases L m pp x sk t seed Hpp Hg) as Hu.
    destruct (N.ltb_spec t (sec_time sk)) as [Hlt|Hge].
    { unfold in_range. replace (sec_time sk <? t) with false by lia. reflexivity. }
    replace (sec_time sk <? t) with true by lia.
    destruct (in_range pp sk t).
    + destruct Hu as [(sk' & Hu & Hg' & Ht)|[Hu Hn]].
      * left. rewrite Hu. destruct (sign_bytes_ok L m pp x sk' msg Hpp Hcs Hg') as (s & Hs & Hgs).
        rewrite Ht in *. rewrite Hs. exists s, sk'. auto.
      * right. rewrite Hu. auto.
    + rewrite Hu. reflexivity.
Qed.

Lemma last_time_lt64 d : (1 <= d < 64)%nat -> last_time d + 1 < two64.
Proof. intros H. unfold last_time. pose proof (pow2_lt64 d ltac:(lia)). pose proof (pow2_pos d). lia. Qed.

Lemma sign_then_update_cases {E} (L : env_laws E) m (pp : pubparam E) x sk t msg seed :
  pp_ok pp -> valid_cs (pp_cs pp) = true -> good_sk pp x sk ->
  if sec_time sk =? t
  then if t <? last_time (pp_depth pp)
       then (exists s sk', sign_then_update m t pp msg seed sk = (Ok s, sk') /\ good_sig pp x t msg s
               /\ sign_present m t pp msg sk = (Ok s, sk)
               /\ update m pp (t + 1) seed sk = (Ok tt, sk') /\ good_sk pp x sk' /\ sec_time sk' = t + 1)
            \/ (sign_then_update m t pp msg seed sk = (Panic P_PRNG, sk) /\ ~ no_repeat (pp_depth pp) sk seed)
       else sign_then_update m t pp msg seed sk = (Err E_TIME_STAMP, sk)
  else sign_then_update m t pp msg seed sk = (Err E_TIME_STAMP, sk).
Proof.
  intros Hpp Hcs Hg. pose proof (gsk_time _ _ _ Hg) as Hr.
  pose proof (last_time_lt64 (pp_depth pp) (ppo_depth pp Hpp)) as H64.
  unfold sign_then_update, sign_present, sbind, sget, slift, sret.
  destruct (N.eqb_spec (sec_time sk) t) as [<-|Hne]; cbn [negb]; [|reflexivity].
  destruct (sign_bytes_ok L m pp x sk msg Hpp Hcs Hg) as (s & -> & Hs).
  rewrite add64_ok by lia. pose proof (update_cases L m pp x sk (sec_time sk + 1) seed Hpp Hg) as Hu.
  unfold in_range in Hu. replace (sec_time sk <? sec_time sk + 1) with true in Hu by lia. cbn [andb] in Hu.
  destruct (N.ltb_spec (sec_time sk) (last_time (pp_depth pp))) as [Hl|Hl].
  - replace (sec_time sk + 1 <=? last_time (pp_depth pp)) with true in Hu by lia.
    destruct Hu as [(sk' & Hu & Hg' & Ht)|[Hu Hn]].
    + left. rewrite Hu. exists s, sk'. auto 10.
    + right. rewrite Hu. auto.
  - replace (sec_time sk + 1 <=? last_time (pp_depth pp)) with false in Hu by lia. rewrite Hu. reflexivity.
Qed.

(** * Reloading, at any depth *)
Lemma p_ssk_zero {E} (L : env_laws E) c (s : subkey E) rest :
  sk_t s = 2^32 -> @p_ssk E c (ssk_blob c s ++ rest) = Err E_TIME_STAMP.
Proof.
  intros Ht. unfold p_ssk, p_bind, ssk_blob. rewrite <- !app_assoc.
  rewrite p_take_app by reflexivity. cbn [bind]. rewrite Ht. reflexivity.
Qed.

Record semi_wf {E} (s : subkey E) : Prop := SemiWf {
  sw_time : 1 <= sk_t s; sw_len : (length (sk_hvec s) < 256)%nat;
  sw_1 : g2_insub (sk_g2r s) = true; sw_2 : g1_insub (sk_hpoly s) = true;
  sw_hv : Forall (fun h => g1_insub h = true) (sk_hvec s) }.
Lemma semi_wf_wf {E} (s : subkey E) : semi_wf s -> sk_t s < 2^32 -> wf_ssk s.
Proof. intros [] H. constructor; auto. Qed.

Lemma p_ssk_semi {E} (L : env_laws E) c (s : subkey E) rest : semi_wf s -> sk_t s <= 2^32 ->
  p_ssk c (ssk_blob c s ++ rest) = Ok (s, rest) \/ @p_ssk E c (ssk_blob c s ++ rest) = Err E_TIME_STAMP.
Proof.
  intros Hw Hle. destruct (N.eq_dec (sk_t s) (2^32)) as [He|Hne].
  - right. apply (p_ssk_zero L), He.
  - left. apply (p_ssk_blob L), semi_wf_wf; [exact Hw|lia].
Qed.
Lemma p_ssks_semi {E} (L : env_laws E) c : forall (l : list (subkey E)) rest,
  Forall semi_wf l -> Forall (fun s => sk_t s <= 2^32) l ->
  p_ssks c (length l) (concat (map (ssk_blob c) l) ++ rest) = Ok (l, rest)
  \/ @p_ssks E c (length l) (concat (map (ssk_blob c) l) ++ rest) = Err E_TIME_STAMP.
Proof.
  induction l as [|s l IH]; intros rest Hw Hle; [left; reflexivity|]. inversion Hw; inversion Hle; subst.
  cbn [length p_ssks map concat]. unfold p_bind. rewrite <- app_assoc.
  destruct (p_ssk_semi L c s (concat (map (ssk_blob c) l) ++ rest)) as [->| ->]; auto.
  cbn [bind]. destruct (IH rest) as [->| ->]; auto.
Qed.

Lemma honest_semi {E} (L : env_laws E) (pp : pubparam E) x s : pp_ok pp -> honest pp x s -> semi_wf s.
Proof.
  intros Hpp (v & r & Hn & Hs). pose proof (node_at_range _ _ _ Hn) as Hr.
  destruct (node_at_turn _ _ _ Hn) as [_ Hl]. pose proof (ppo_depth pp Hpp).
  rewrite Hs. constructor; cbn [honest_ssk sk_t sk_g2r sk_hpoly].
  - lia.
  - rewrite honest_hvec_len by exact Hpp. lia.
  - apply (g2_mul_insub L), Hpp.
  - apply (l1_sub_add E L); apply (g1_mul_insub L); [apply Hpp|apply (node_val_insub L), Hpp].
  - cbn [sk_hvec]. apply Forall_map. eapply Forall_impl; [|apply Forall_firstn, Forall_skipn, (ppo_hlist pp Hpp)].
    intros a Ha. apply (g1_mul_insub L), Ha.
Qed.

Lemma reload_cases {E} (L : env_laws E) c (pp : pubparam E) x sk :
  pp_ok pp -> valid_cs (pp_cs pp) = true -> good_sk pp x sk ->
  reload c sk = (Ok tt, sk) \/ exists e, reload c sk = (Err e, sk).
Proof.
  intros Hpp Hcs Hg. unfold reload. pose proof (sk_aon sk c) as Ha.
  destruct (valid_cs (sec_cs sk) && _) eqn:Eok.
  2:{ right. apply aon_to_vec_err in Ha as (e & ->). eauto. }
  rewrite (aon_to_vec _ _ Ha).
  rewrite (parses_slice calm _ _ _ (calm_slice _) (parses_sk c)).
  apply andb_true_iff in Eok as [Hc Hle]. rewrite forallb_forall in Hle.
  destruct Hg as [Hcs' Ht Htil Hh [Hp _]]. pose proof (ppo_depth pp Hpp).
  pose proof (tiling_length (pp_depth pp) _ _ ltac:(lia) Htil Ht) as Hl. rewrite map_length in Hl.
  rewrite <- (app_nil_r (sk_blob c sk)). unfold p_sk, p_bind, sk_blob. rewrite <- !app_assoc.
  rewrite p_take_app by reflexivity. cbn [bind]. rewrite p_take_app by exact Hp. cbn [bind nth].
  rewrite Hc. cbn [negb]. rewrite N.mod_small by lia.
  replace (N.of_nat (length (sec_ssk sk)) =? 0) with false by lia. rewrite Nat2N.id.
  destruct sk as [cs t l g]. cbn [sec_cs sec_time sec_ssk sec_prng] in *.
  destruct l as [|s l]; [cbn in Hl; lia|]. cbn [map] in Htil.
  assert (Hts : sk_t s = t) by (inversion Htil; reflexivity).
  inversion Hh as [|? ? Hh1 Hh2]; subst. cbn [map concat length]. rewrite <- app_assoc.
  destruct (p_ssk_semi L c s (concat (map (ssk_blob c) l) ++ [])) as [->| ->].
  { apply (honest_semi L pp x); auto. }
  { specialize (Hle s (or_introl eq_refl)). lia. }
  2:{ cbn [bind]. eauto. }
  cbn [bind]. replace (S (length l) - 1)%nat with (length l) by lia.
  destruct (p_ssks_semi L c l []) as [->| ->]; cbn [bind p_ret]; eauto.
  - eapply Forall_impl; [|exact Hh2]. intros s'. apply (honest_semi L); auto.
  - apply Forall_forall. intros s' Hs'. specialize (Hle s' (or_intror Hs')). lia.
Qed.

Lemma reload_ok {E} (L : env_laws E) c (pp : pubparam E) x sk :
  pp_ok pp -> valid_cs (pp_cs pp) = true -> (pp_depth pp <= 32)%nat -> good_sk pp x sk ->
  reload c sk = (Ok tt, sk).
Proof. intros Hpp Hcs Hd Hg. apply (reload_wf L). eapply (good_wf L); eauto. Qed.

(** * One step *)
(** What an operation may do to a good key, and what it returns. *)
Definition step_ok {E} (m : mode) (pp : pubparam E) (x : N) (o : op) (sk : seckey E)
    (r : res (option (signature E))) (sk' : seckey E) : Prop :=
  good_sk pp x sk' /\
  match o, r with
  | OpUpdate t seed, Ok None => sec_time sk < t /\ sec_time sk' = t
  | OpSign t msg seed, Ok (Some s) =>
      good_sig pp x t msg s /\ sec_time sk <= t /\ sec_time sk' = t /\ (sec_time sk = t -> sk' = sk)
  | OpSignPresent t msg, Ok (Some s) => good_sig pp x t msg s /\ sec_time sk = t /\ sk' = sk
  | OpSignThenUpdate t msg seed, Ok (Some s) =>
      good_sig pp x t msg s /\ sec_time sk = t /\ sec_time sk' = t + 1
  | OpReload c, Ok None => sk' = sk
  | _, Ok _ => False
  | OpReload _, Err _ => sk' = sk
  | _, Err e => e = E_TIME_STAMP /\ sk' = sk
  | OpUpdate _ seed, Panic p | OpSign _ _ seed, Panic p | OpSignThenUpdate _ _ seed, Panic p =>
      p = P_PRNG /\ sk' = sk /\ ~ no_repeat (pp_depth pp) sk seed
  | _, Panic p => False
  end.

Lemma step_good {E} (L : env_laws E) m (pp : pubparam E) x o sk :
  pp_ok pp -> valid_cs (pp_cs pp) = true -> good_sk pp x sk ->
  step_ok m pp x o sk (fst (step m pp o sk)) (snd (step m pp o sk)).
Proof.
  intros Hpp Hcs Hg. destruct o as [t seed|t msg seed|t msg|t msg seed|c]; cbn [step]; unfold sbind, sret.
  - pose proof (update_cases L m pp x sk t seed Hpp Hg) as H. destruct (in_range pp sk t) eqn:Er.
    + unfold in_range in Er. destruct H as [(sk' & -> & Hg' & Ht)|[-> Hn]]; unfold step_ok; cbn [fst snd]; auto 10.
      split; [exact Hg'|]. split; [lia|exact Ht].
    + rewrite H. unfold step_ok; cbn [fst snd]. auto.
  - pose proof (sign_cases L m pp x sk t msg seed Hpp Hcs Hg) as H.
    destruct (N.eqb_spec (sec_time sk) t) as [He|Hne].
    + destruct H as (s & -> & Hs). unfold step_ok; cbn [fst snd]. split; [exact Hg|]. split; [exact Hs|]. split; [lia|]. auto.
    + destruct (in_range pp sk t) eqn:Er.
      * unfold in_range in Er. destruct H as [(s & sk' & -> & Hs & _ & Hg' & Ht)|[-> Hn]]; unfold step_ok; cbn [fst snd]; auto 10.
        split; [exact Hg'|]. split; [exact Hs|]. split; [lia|]. split; [exact Ht|lia].
      * rewrite H. unfold step_ok; cbn [fst snd]. auto.
  - pose proof (sign_present_cases L m pp x sk t msg Hpp Hcs Hg) as H.
    destruct (N.eqb_spec (sec_time sk) t) as [He|Hne].
    + destruct H as (s & -> & Hs). unfold step_ok; cbn [fst snd]. auto.
    + rewrite H. unfold step_ok; cbn [fst snd]. auto.
  - pose proof (sign_then_update_cases L m pp x sk t msg seed Hpp Hcs Hg) as H.
    destruct (N.eqb_spec (sec_time sk) t) as [He|Hne].
    + destruct (t <? last_time (pp_depth pp)).
      * destruct H as [(s & sk' & -> & Hs & _ & _ & Hg' & Ht)|[-> Hn]]; unfold step_ok; cbn [fst snd]; auto 10.
      * rewrite H. unfold step_ok; cbn [fst snd]. auto.
    + rewrite H. unfold step_ok; cbn [fst snd]. auto.
  - destruct (reload_cases L c pp x sk Hpp Hcs Hg) as [->|(e & ->)]; unfold step_ok; cbn [fst snd]; auto.
Qed.

Lemma run_good {E} (L : env_laws E) m (pp : pubparam E) x : forall ops sk,
  pp_ok pp -> valid_cs (pp_cs pp) = true -> good_sk pp x sk -> good_sk pp x (snd (run m pp ops sk)).
Proof.
  induction ops as [|o ops IH]; intros sk Hpp Hcs Hg; [exact Hg|]. cbn [run].
  pose proof (step_good L m pp x o sk Hpp Hcs Hg) as [Hg' _]. destruct (step m pp o sk) as [r sk1]. cbn [fst snd] in Hg'.
  specialize (IH sk1 Hpp Hcs Hg'). destruct (run m pp ops sk1). exact IH.
Qed.

Lemma reachable_good {E} (L : env_laws E) m (pp : pubparam E) pk sk :
  pp_ok pp -> reachable m pp pk sk ->
  exists x, x < fr_modulus /\ pk = PubKey (pp_cs pp) (g2_mul x (pp_g2 pp)) /\ good_sk pp x sk
            /\ valid_cs (pp_cs pp) = true.
Proof.
  intros Hpp (seed & sk0 & pop & ops & Hk & <-).
  destruct (key_gen_good L pp seed pk sk0 pop Hpp Hk) as (x & Hx & -> & Hg & _ & Hcs).
  exists x. split; [exact Hx|]. split; [reflexivity|]. split; [|exact Hcs]. apply (run_good L); auto.
Qed.

Lemma run_app {E} m (pp : pubparam E) : forall a b sk,
  run m pp (a ++ b) sk = (fst (run m pp a sk) ++ fst (run m pp b (snd (run m pp a sk))),
                          snd (run m pp b (snd (run m pp a sk)))).
Proof.
  induction a as [|o a IH]; intros b sk; cbn [app run].
  - cbn [fst snd app]. apply surjective_pairing.
  - destruct (step m pp o sk) as [r sk1]. rewrite IH. destruct (run m pp a sk1) as [rs sk2]. reflexivity.
Qed.

Lemma reachable_run {E} m (pp : pubparam E) pk sk ops :
  reachable m pp pk sk -> reachable m pp pk (snd (run m pp ops sk)).
Proof.
  intros (seed & sk0 & pop & ops0 & Hk & <-). exists seed, sk0, pop, (ops0 ++ ops). split; [exact Hk|].
  rewrite run_app. reflexivity.
Qed.

(** * validate *)
Lemma validate_loop_good {E} (L : env_laws E) m (pp : pubparam E) x cs : forall l gl,
  pp_ok pp -> Forall (honest pp x) l -> map sk_t l = map tv_time gl ->
  validate_loop m (PubKey cs (g2_mul x (pp_g2 pp))) pp l gl = Ok true.
Proof.
  induction l as [|s l IH]; intros gl Hpp Hh Hm; [reflexivity|].
  destruct gl as [|tv gl]; [discriminate|]. injection Hm as Hm1 Hm2.
  inversion Hh as [|? ? (v & r & Hn & Hs) Hh']; subst. cbn [validate_loop].
  rewrite Hs at 1. rewrite (ssk_validate_honest L) by auto. cbn [bind negb].
  rewrite Hm1, N.eqb_refl. cbn [negb]. apply IH; auto.
Qed.

Lemma validate_good {E} (L : env_laws E) m (pp : pubparam E) x sk :
  pp_ok pp -> good_sk pp x sk ->
  sk_validate m sk (PubKey (pp_cs pp) (g2_mul x (pp_g2 pp))) pp = Ok true.
Proof.
  intros Hpp [Hcs Ht Htil Hh _]. unfold sk_validate. cbn [pk_cs]. rewrite Hcs, N.eqb_refl. cbn [negb orb].
  pose proof (ppo_depth pp Hpp).
  destruct (tv_init_ex m (pp_depth pp) (sec_time sk) ltac:(lia) Ht) as (v & Hn & ->).
  destruct (gamma_list_spec m (pp_depth pp) _ v ltac:(lia) Hn) as (pl & -> & _ & Htil' & _).
  apply (validate_loop_good L); auto. rewrite map_map. cbn [mk_tv tv_time].
  rewrite (tiling_fun _ _ _ _ Htil Htil'). reflexivity.
Qed.
