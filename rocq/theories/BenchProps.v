(** Lemmas behind Properties_Bench.v: the outcomes of the benchmark programs. *)
From Coq Require Import ZifyBool ZifyNat ZifyN.
From Verif Require Import Base Env Time Prng SubKey SecretKey Keys Sig IO Serdes Api Ffi Python Programs Tests Bench.
From Verif Require Import SpecTime TimeFacts GroupFacts SpecPrng PrngFacts SpecKey SubKeyFacts SpecUpdate UpdateFacts KeyFacts.
From Verif Require Import SpecSer IOFacts SerFacts HistoryFacts KeyProps SubProps ValProps SerProps SpecFfi FfiProps VerProps
  SpecRand RandProps AlgProps SpecAgg AggProps SpecColl CollProps SpecProg ProgProps SpecTest TestProps SpecBench.
Local Open Scope N_scope.

Lemma iter_passes {E} m (pp : pubparam E) hs {S} (l : list S) body : forall ds c, (c < length l)%nat ->
  (forall s d, In s l -> In d ds -> passes m pp hs (body s d)) -> passes m pp hs (iter l c ds body).
Proof.
  induction ds as [|d ds IH]; intros c Hc H; cbn [iter]; [apply passes_ok|].
  destruct (nth_error l c) as [s|] eqn:Hs; [|apply nth_error_None in Hs; lia].
  apply (passes_bind m pp hs (body s d) (fun _ => match l with [] => Panic P_ARITH | _ => iter l ((c + 1) mod length l) ds body end)).
  - apply H; [apply (nth_error_In l c Hs)|left; reflexivity].
  - destruct l as [|s0 l0]; [cbn in Hc; lia|]. apply IH; [apply Nat.mod_upper_bound; discriminate|].
    intros s' d' Hs' Hd'. apply H; [exact Hs'|right; exact Hd'].
Qed.
Lemma for_list_cases {A B} (f : A -> res B) (good : A -> Prop) (P : A -> B -> Prop) (Q : Prop) (l : list A) :
  (forall x, good x \/ ~ good x) ->
  (forall x, In x l -> good x -> (exists y, f x = Ok y /\ P x y) \/ (f x = Panic P_PRNG /\ Q)) ->
  (forall x, In x l -> ~ good x -> f x = Panic P_ASSERT) ->
  (Forall good l /\ exists ys, for_list l f = Ok ys /\ Forall2 P l ys)
  \/ (for_list l f = Panic P_PRNG /\ Q) \/ (~ Forall good l /\ for_list l f = Panic P_ASSERT).
Proof.
  intros Hdec. induction l as [|x l IH]; intros Hg Hb; cbn [for_list].
  - left. split; [constructor|]. exists []. split; [reflexivity|constructor].
  - destruct (Hdec x) as [Hx|Hx].
    + destruct (Hg x (or_introl eq_refl) Hx) as [(y & -> & Hy)|[-> Hq]]; cbn [bind]; [|right; left; auto].
      destruct IH as [(Hl & ys & -> & Hys)|[[-> Hq]|[Hl ->]]]; [intros; apply Hg; [right|]; assumption|intros; apply Hb; [right|]; assumption| | |]; cbn [bind].
      * left. split; [constructor; assumption|]. exists (y :: ys). split; [reflexivity|constructor; assumption].
      * right. left. auto.
      * right. right. split; [|reflexivity]. intros H. inversion H. contradiction.
    + rewrite (Hb x (or_introl eq_refl) Hx). right. right. split; [|reflexivity]. intros H. inversion H. contradiction.
Qed.
(** The good case of a preparation is its list of results. *)
Lemma outcome_list {E} m (pp : pubparam E) hs {A B} (f : A -> res B) (good : A -> Prop) (P : A -> B -> Prop) (l : list A) k :
  (forall x, good x \/ ~ good x) ->
  (forall x, In x l -> good x -> (exists y, f x = Ok y /\ P x y) \/ (f x = Panic P_PRNG /\ breaks m pp hs)) ->
  (forall x, In x l -> ~ good x -> f x = Panic P_ASSERT) ->
  (forall ys, Forall2 P l ys -> passes m pp hs (k ys)) ->
  outcome m pp hs (Forall good l) (let! ys := for_list l f in k ys).
Proof.
  intros Hdec Hg Hb Hk. destruct (for_list_cases f good P (breaks m pp hs) l Hdec Hg Hb) as [(Hl & ys & -> & Hys)|[[-> Hq]|[Hl ->]]]; cbn [bind].
  - split; [intros _; apply Hk, Hys|contradiction].
  - split; intros _; right; auto.
  - split; [contradiction|auto].
Qed.
Lemma zip_length {A B} (P : A -> B -> Prop) l ys : Forall2 P l ys -> length l = length ys.
Proof. induction 1; cbn; congruence. Qed.
Lemma in_zip {A B} (P : A -> B -> Prop) l ys y : Forall2 P l ys -> In y ys -> exists x, In x l /\ P x y.
Proof.
  induction 1 as [|x y' l ys H _ IH]; intros Hy; [destruct Hy|destruct Hy as [Hy|Hy]].
  - subst. exists x. split; [left; reflexivity|exact H].
  - destruct (IH Hy) as (x' & Hx & Hp). exists x'. split; [right; exact Hx|exact Hp].
Qed.

Section Bench.
Context {E : env} (L : env_laws E) (m : mode) (pp : pubparam E).
Context (Hpp : pp_ok pp) (Hd : (2 <= pp_depth pp <= 32)%nat) (Hcs : supported (pp_cs pp)).

Lemma last_time_3 : 3 <= last_time (pp_depth pp) < 2^32.
Proof.
  unfold last_time, pow2. assert (H1 : 2^2 <= 2^N.of_nat (pp_depth pp)) by (apply N.pow_le_mono_r; lia).
  assert (H2 : 2^N.of_nat (pp_depth pp) <= 2^32) by (apply N.pow_le_mono_r; lia). change (2^2) with 4 in H1. lia.
Qed.
Lemma max_time_eq : max_time m pp = Ok (last_time (pp_depth pp)).
Proof.
  pose proof last_time_3 as H. unfold max_time, shl64. replace (pp_depth pp <? 64)%nat with true by lia. cbn [bind].
  unfold sub64, last_time in *. replace (1 <=? pow2 (pp_depth pp)) with true by lia. reflexivity.
Qed.
Lemma drawn_lt k p : k < last_time (pp_depth pp) -> drawn pp k p < last_time (pp_depth pp) - k.
Proof. clear Hd Hpp Hcs. intros H. apply N.mod_lt. lia. Qed.

Lemma aged_key_eq k (s : bytes) d : k < last_time (pp_depth pp) ->
  aged_key m pp k (s, d) = (let! (_, sk, _) := unwrap (key_gen s pp) in updated m pp (drawn pp k (s, d)) [] sk).
Proof.
  intros Hk. unfold aged_key, drawn. cbn [fst snd]. rewrite max_time_eq. cbn [bind].
  destruct (unwrap (key_gen s pp)) as [[[pk sk] pop]| |]; [|reflexivity|reflexivity]. cbn [bind].
  unfold sub64. replace (k <=? last_time (pp_depth pp)) with true by lia. cbn [bind]. unfold gen_range.
  replace (0 <? last_time (pp_depth pp) - k) with true by lia. cbn [bind]. rewrite N.sub_0_r, N.add_0_l. reflexivity.
Qed.
Definition aged (k : N) (p : bytes * N) (sk : seckey E) : Prop :=
  exists pk, reached m pp (fst p) [OpUpdate (drawn pp k p) []] pk sk /\ sec_time sk = drawn pp k p.
Lemma aged_key_good k (p : bytes * N) hs : k < last_time (pp_depth pp) -> (32 <= length (fst p))%nat ->
  (exists l', In (fst p, OpUpdate (drawn pp k p) [] :: l') hs) -> 2 <= drawn pp k p ->
  (exists sk, aged_key m pp k p = Ok sk /\ aged k p sk) \/ (aged_key m pp k p = Panic P_PRNG /\ breaks m pp hs).
Proof.
  intros Hk Hs (l' & Hi) Ht. pose proof (drawn_lt k p Hk) as Hlt. destruct p as [s d]. cbn [fst] in *. rewrite (aged_key_eq k s d Hk).
  destruct (keygen_now L m pp s Hpp Hs Hcs) as (pk & sk & pop & -> & Hr & Ht1 & _). cbn [unwrap bind]. set (p := (s, d)) in *.
  destruct (updated_cases L m pp s [] pk sk (drawn pp k p) [] Hpp ltac:(lia) Hr ltac:(lia)) as [(sk' & -> & _ & Hr' & Ht')|[-> Hb]].
  - left. exists sk'. split; [reflexivity|]. exists pk. auto.
  - right. split; [reflexivity|]. exists s, [], (OpUpdate (drawn pp k p) []), l'. auto.
Qed.
Lemma aged_key_bad k (p : bytes * N) : k < last_time (pp_depth pp) -> (32 <= length (fst p))%nat -> ~ 2 <= drawn pp k p ->
  aged_key m pp k p = Panic P_ASSERT.
Proof.
  intros Hk Hs Ht. destruct p as [s d]. cbn [fst] in *. rewrite (aged_key_eq k s d Hk).
  destruct (keygen_now L m pp s Hpp Hs Hcs) as (pk & sk & pop & -> & Hr & Ht1 & _). cbn [unwrap bind]. set (p := (s, d)) in *.
  destruct (reachable_good L m pp pk sk Hpp (reached_reachable _ _ _ _ _ _ Hr)) as (x & _ & _ & Hg & _).
  unfold updated, run_mut. pose proof (update_cases L m pp x sk (drawn pp k p) [] Hpp Hg) as Hu. unfold in_range in Hu.
  replace (sec_time sk <? drawn pp k p) with false in Hu by lia. cbn [andb] in Hu. rewrite Hu. reflexivity.
Qed.
Lemma aged_outcome k (ps : list (bytes * N)) hs body ds : k < last_time (pp_depth pp) -> ps <> [] -> Forall (fun p => (32 <= length (fst p))%nat) ps ->
  (forall p, In p ps -> exists l', In (fst p, OpUpdate (drawn pp k p) [] :: l') hs) ->
  (forall p sk d, In p ps -> In d ds -> aged k p sk -> passes m pp hs (body sk d)) ->
  outcome m pp hs (all_from pp k 2 ps) (let! sks := for_list ps (aged_key m pp k) in iter sks 0 ds body).
Proof.
  intros Hk Hne Hs Hi Hb. rewrite Forall_forall in Hs.
  apply (outcome_list m pp hs (aged_key m pp k) (fun p => 2 <= drawn pp k p) (aged k) ps (fun sks => iter sks 0 ds body)).
  - intros p. lia.
  - intros p Hp Ht. apply (aged_key_good k p hs Hk (Hs p Hp) (Hi p Hp) Ht).
  - intros p Hp Ht. apply (aged_key_bad k p Hk (Hs p Hp) Ht).
  - intros sks Hf. apply iter_passes.
    + rewrite <- (zip_length _ _ _ Hf). destruct ps; [contradiction|cbn; lia].
    + intros sk d Hsk Hdd. destruct (in_zip _ _ _ _ Hf Hsk) as (p & Hp & Ha). apply (Hb p sk d Hp Hdd Ha).
Qed.
Lemma add64_time t : t < 2^32 -> add64 m t 1 = Ok (t + 1).
Proof. clear Hd Hpp Hcs. intros H. unfold add64, two64. replace (t + 1 <? _) with true by lia. reflexivity. Qed.
End Bench.

Lemma bench_next : forall (E : env) (L : env_laws E) m (pp : pubparam E) ps ds,
  pp_ok pp -> (2 <= pp_depth pp <= 32)%nat -> supported (pp_cs pp) ->
  ps <> [] -> Forall (fun p => (32 <= length (fst p))%nat) ps ->
  outcome m pp (next_histories pp 1 (fun t => OpUpdate (t + 1) []) ps) (all_from pp 1 2 ps) (bench_key_update_next m pp ps ds).
Proof.
  intros E L m pp ps ds Hpp Hd Hcs Hne Hs. pose proof (last_time_3 pp Hd) as Hl3. unfold bench_key_update_next.
  apply (aged_outcome L m pp Hpp Hd Hcs 1); auto; [lia| |].
  - intros p Hp. eexists. apply in_map_iff. exists p. split; [reflexivity|exact Hp].
  - intros p sk d Hp _ (pk & Hr & Ht). pose proof (drawn_lt pp 1 p ltac:(lia)) as Hlt.
    rewrite (add64_time m (sec_time sk)) by lia. cbn [bind].
    apply (passes_update L m pp (fst p) [] Hpp ltac:(lia) _ [OpUpdate (drawn pp 1 p) []] pk sk (sec_time sk + 1) (fun _ => Ok tt) Hr); [lia| |].
    + exists []. apply in_map_iff. exists p. rewrite Ht. split; [reflexivity|exact Hp].
    + intros. apply passes_ok.
Qed.

Section Random.
Context {E : env} (L : env_laws E) (m : mode) (pp : pubparam E).
Context (Hpp : pp_ok pp) (Hd : (2 <= pp_depth pp <= 32)%nat) (Hcs : supported (pp_cs pp)).
Lemma redraw_ok p sk d : aged m pp 2 p sk ->
  (let! lo := add64 m (sec_time sk) 1 in let! hi := sub64 m (last_time (pp_depth pp)) 1 in gen_range lo hi d)
    = Ok (redrawn pp (drawn pp 2 p) d)
  /\ sec_time sk < redrawn pp (drawn pp 2 p) d <= last_time (pp_depth pp).
Proof.
  intros (pk & Hr & Ht). pose proof (last_time_3 pp Hd) as Hl3. pose proof (drawn_lt pp 2 p ltac:(lia)) as Hlt.
  rewrite (add64_time m (sec_time sk)) by lia. cbn [bind]. unfold sub64. replace (1 <=? last_time (pp_depth pp)) with true by lia. cbn [bind].
  unfold gen_range, redrawn. rewrite Ht. replace (drawn pp 2 p + 1 <? last_time (pp_depth pp) - 1) with true by lia. split; [reflexivity|].
  pose proof (N.mod_lt d (last_time (pp_depth pp) - 1 - (drawn pp 2 p + 1)) ltac:(lia)). lia.
Qed.
Lemma random_in o ps ds p d : In p ps -> In d ds ->
  exists l', In (fst p, [OpUpdate (drawn pp 2 p) []] ++ o (redrawn pp (drawn pp 2 p) d) :: l') (random_histories pp 2 o ps ds).
Proof.
  intros Hp Hdd. exists []. apply in_or_app. left. apply in_flat_map. exists p. split; [exact Hp|]. apply in_map_iff. exists d. auto.
Qed.
Lemma random_in1 o ps ds p : In p ps -> exists l', In (fst p, OpUpdate (drawn pp 2 p) [] :: l') (random_histories pp 2 o ps ds).
Proof. intros Hp. exists []. apply in_or_app. right. apply in_map_iff. exists p. auto. Qed.
Lemma passes_sign hs kseed l pk sk msg t seed : reached m pp kseed l pk sk -> sec_time sk <= t <= last_time (pp_depth pp) ->
  (exists l', In (kseed, l ++ OpSign t msg seed :: l') hs) ->
  (exists s sk', sign m t pp msg seed sk = (Ok s, sk') /\ verify m s pk pp msg = Ok true)
  \/ (mut_ok (sign m t pp msg seed) sk = Panic P_PRNG /\ breaks m pp hs).
Proof.
  intros Hr Ht (l' & Hi). destruct (sign_later L m pp kseed l pk sk msg t seed Hpp ltac:(lia) Hr Ht) as [(s & sk' & H & Hv & _)|(_ & H & Hb)].
  - left. exists s, sk'. auto.
  - right. unfold mut_ok. rewrite H. split; [reflexivity|]. exists kseed, l, (OpSign t msg seed), l'. auto.
Qed.
End Random.

Lemma bench_random : forall (E : env) (L : env_laws E) m (pp : pubparam E) ps ds,
  pp_ok pp -> (2 <= pp_depth pp <= 32)%nat -> supported (pp_cs pp) ->
  ps <> [] -> Forall (fun p => (32 <= length (fst p))%nat) ps ->
  outcome m pp (random_histories pp 2 (fun t => OpUpdate t []) ps ds) (all_from pp 2 2 ps) (bench_key_update_random m pp ps ds).
Proof.
  intros E L m pp ps ds Hpp Hd Hcs Hne Hs. pose proof (last_time_3 pp Hd) as Hl3. unfold bench_key_update_random.
  rewrite (max_time_eq m pp Hd). cbn [bind]. apply (aged_outcome L m pp Hpp Hd Hcs 2); auto; [lia|intros p Hp; apply (random_in1 pp _ ps ds p Hp)|].
  intros p sk d Hp Hdd Ha. destruct (redraw_ok m pp Hd p sk d Ha) as [He Ht]. destruct Ha as (pk & Hr & _).
  destruct (add64 m (sec_time sk) 1) as [lo| |]; cbn [bind] in *; try discriminate.
  destruct (sub64 m (last_time (pp_depth pp)) 1) as [hi| |]; cbn [bind] in *; try discriminate. rewrite He. cbn [bind].
  apply (passes_update L m pp (fst p) [] Hpp ltac:(lia) _ [OpUpdate (drawn pp 2 p) []] pk sk (redrawn pp (drawn pp 2 p) d) (fun _ => Ok tt) Hr Ht).
  - apply (random_in pp (fun t => OpUpdate t []) ps ds p d Hp Hdd).
  - intros. apply passes_ok.
Qed.
Lemma bench_signing : forall (E : env) (L : env_laws E) m (pp : pubparam E) msg ps ds,
  pp_ok pp -> (2 <= pp_depth pp <= 32)%nat -> supported (pp_cs pp) ->
  ps <> [] -> Forall (fun p => (32 <= length (fst p))%nat) ps ->
  outcome m pp (random_histories pp 2 (fun t => OpSign t msg []) ps ds) (all_from pp 2 2 ps) (bench_sign m pp msg ps ds)
  /\ outcome m pp (next_histories pp 2 (fun t => OpSignPresent t msg) ps) (all_from pp 2 2 ps) (bench_sign_present m pp msg ps ds)
  /\ outcome m pp (next_histories pp 2 (fun t => OpSignThenUpdate t msg []) ps) (all_from pp 2 2 ps) (bench_sign_then_update m pp msg ps ds).
Proof.
  intros E L m pp msg ps ds Hpp Hd Hcs Hne Hs. pose proof (last_time_3 pp Hd) as Hl3. split; [|split].
  - unfold bench_sign.
    rewrite (max_time_eq m pp Hd). cbn [bind]. apply (aged_outcome L m pp Hpp Hd Hcs 2); auto; [lia|intros p Hp; apply (random_in1 pp _ ps ds p Hp)|].
    intros p sk d Hp Hdd Ha. destruct (redraw_ok m pp Hd p sk d Ha) as [He Ht]. destruct Ha as (pk & Hr & _).
    destruct (add64 m (sec_time sk) 1) as [lo| |]; cbn [bind] in *; try discriminate.
    destruct (sub64 m (last_time (pp_depth pp)) 1) as [hi| |]; cbn [bind] in *; try discriminate. rewrite He. cbn [bind].
    destruct (passes_sign L m pp Hpp Hd _ (fst p) _ pk sk msg (redrawn pp (drawn pp 2 p) d) [] Hr ltac:(lia)
      (random_in pp (fun t => OpSign t msg []) ps ds p d Hp Hdd)) as [(s & sk' & H & _)|[H Hb]].
    + unfold mut_ok. rewrite H. apply passes_ok.
    + rewrite H. right. auto.
  - unfold bench_sign_present. apply (aged_outcome L m pp Hpp Hd Hcs 2); auto; [lia| |].
    + intros p Hp. eexists. apply in_map_iff. exists p. split; [reflexivity|exact Hp].
    + intros p sk d Hp _ (pk & Hr & Ht). unfold mut_ok.
      destruct (sign_now L m pp pk sk msg Hpp ltac:(lia) (reached_reachable _ _ _ _ _ _ Hr)) as (s & -> & _). apply passes_ok.
  - unfold bench_sign_then_update. apply (aged_outcome L m pp Hpp Hd Hcs 2); auto; [lia| |].
    + intros p Hp. eexists. apply in_map_iff. exists p. split; [reflexivity|exact Hp].
    + intros p sk d Hp _ (pk & Hr & Ht). pose proof (drawn_lt pp 2 p ltac:(lia)) as Hlt.
      destruct (reachable_good L m pp pk sk Hpp (reached_reachable _ _ _ _ _ _ Hr)) as (x & _ & _ & Hg & Hcv).
      pose proof (sign_then_update_cases L m pp x sk (sec_time sk) msg [] Hpp Hcv Hg) as H. rewrite N.eqb_refl in H.
      replace (sec_time sk <? last_time (pp_depth pp)) with true in H by lia. unfold mut_ok.
      destruct H as [(s & sk' & H & _ & _ & _ & _ & Ht')|[H _]]; rewrite H.
      * cbn [bind]. rewrite (add64_time m (sec_time sk)) by lia. cbn [bind]. rewrite Ht', N.eqb_refl. apply passes_ok.
      * right. split; [reflexivity|]. exists (fst p), [OpUpdate (drawn pp 2 p) []], (OpSignThenUpdate (sec_time sk) msg []), [].
        split; [apply in_map_iff; exists p; rewrite Ht; auto|].
        apply (reached_panic L m m pp (fst p) _ pk sk (OpSignThenUpdate (sec_time sk) msg []) P_PRNG Hpp ltac:(lia) Hr).
        cbn [step]. unfold sbind. rewrite H. reflexivity.
Qed.

Lemma signed_eq {E} m (pp : pubparam E) msg (p : bytes * N) : (2 <= pp_depth pp <= 32)%nat ->
  signed m pp msg p =
    (let! (pk, sk, pop) := unwrap (key_gen (fst p) pp) in
     let! (sig, _) := mut_ok (sign m (drawn pp 2 p) pp msg []) sk in Ok (pk, pop, sig)).
Proof.
  intros Hd. pose proof (last_time_3 pp Hd) as Hl3.
  unfold signed. rewrite (max_time_eq m pp Hd). cbn [bind]. destruct (unwrap (key_gen (fst p) pp)) as [[[pk sk] pop]| |]; [|reflexivity|reflexivity].
  cbn [bind]. unfold sub64. replace (2 <=? last_time (pp_depth pp)) with true by lia. cbn [bind]. unfold gen_range.
  replace (0 <? last_time (pp_depth pp) - 2) with true by lia. cbn [bind]. rewrite N.sub_0_r, N.add_0_l. reflexivity.
Qed.
Lemma signed_bad {E} (L : env_laws E) m (pp : pubparam E) msg (p : bytes * N) :
  pp_ok pp -> (2 <= pp_depth pp <= 32)%nat -> supported (pp_cs pp) -> (32 <= length (fst p))%nat ->
  ~ 1 <= drawn pp 2 p -> signed m pp msg p = Panic P_ASSERT.
Proof.
  intros Hpp Hd Hcs Hs Ht. rewrite (signed_eq m pp msg p Hd).
  destruct (keygen_now L m pp (fst p) Hpp Hs Hcs) as (pk & sk & pop & -> & Hr & Ht1 & _). cbn [unwrap bind].
  destruct (reachable_good L m pp pk sk Hpp (reached_reachable _ _ _ _ _ _ Hr)) as (x & _ & _ & Hg & Hcv).
  pose proof (sign_cases L m pp x sk (drawn pp 2 p) msg [] Hpp Hcv Hg) as H.
  replace (sec_time sk =? drawn pp 2 p) with false in H by lia. unfold in_range in H.
  replace (sec_time sk <? drawn pp 2 p) with false in H by lia. cbn [andb] in H. unfold mut_ok. rewrite H. reflexivity.
Qed.
Lemma bench_verifying : forall (E : env) (L : env_laws E) m (pp : pubparam E) msg ps ds ds',
  pp_ok pp -> (2 <= pp_depth pp <= 32)%nat -> supported (pp_cs pp) -> pp_g2 pp = g2_one ->
  ps <> [] -> Forall (fun p => (32 <= length (fst p))%nat) ps ->
  outcome m pp (map (fun p => (fst p, [OpSign (drawn pp 2 p) msg []])) ps) (all_from pp 2 1 ps) (bench_verify m pp msg ps ds ds').
Proof.
  intros E L m pp msg ps ds ds' Hpp Hd Hcs Hone Hne Hs. pose proof (last_time_3 pp Hd) as Hl3. rewrite Forall_forall in Hs.
  unfold bench_verify.
  apply (outcome_list m pp _ (signed m pp msg) (fun p => 1 <= drawn pp 2 p)
    (fun _ x => pk_validate (fst (fst x)) (snd (fst x)) = true /\ verify m (snd x) (fst (fst x)) pp msg = Ok true) ps
    (fun l => let! _ := iter l 0 ds (fun x _ => let '(pk, pop, _) := x in assert_ (pk_validate pk pop)) in
              iter l 0 ds' (fun x _ => let '(pk, _, sig) := x in assert_true (verify m sig pk pp msg)))).
  - intros p. lia.
  - intros p Hp Ht. pose proof (drawn_lt pp 2 p ltac:(lia)) as Hlt. rewrite (signed_eq m pp msg p Hd).
    destruct (keygen_now L m pp (fst p) Hpp (Hs p Hp) Hcs) as (pk & sk & pop & Hk & Hr & Ht1 & _). rewrite Hk. cbn [unwrap bind].
    destruct (passes_sign L m pp Hpp Hd (map (fun p => (fst p, [OpSign (drawn pp 2 p) msg []])) ps) (fst p) [] pk sk msg (drawn pp 2 p) [] Hr ltac:(lia)) as [(s & sk' & H & Hv)|[H Hb]].
    { exists []. apply in_map_iff. exists p. auto. }
    + left. exists (pk, pop, s). unfold mut_ok. rewrite H. cbn [bind fst snd]. split; [reflexivity|]. split; [|exact Hv].
      apply (keygen_pop E L pp (fst p) pk sk pop Hpp Hone Hk).
    + right. rewrite H. auto.
  - intros p Hp Ht. apply (signed_bad L m pp msg p Hpp Hd Hcs (Hs p Hp) Ht).
  - intros l Hf. assert (Hlen : (0 < length l)%nat) by (rewrite <- (zip_length _ _ _ Hf); destruct ps; [contradiction|cbn; lia]).
    apply (passes_bind m pp _ (iter l 0 ds (fun x _ => let '(pk, pop, _) := x in assert_ (pk_validate pk pop)))
      (fun _ => iter l 0 ds' (fun x _ => let '(pk, _, sig) := x in assert_true (verify m sig pk pp msg)))); apply iter_passes; auto;
      intros [[pk pop] sig] d Hx _; destruct (in_zip _ _ _ _ Hf Hx) as (p & _ & H1 & H2); cbn [fst snd] in *.
    + rewrite H1. apply passes_ok.
    + rewrite H2. apply passes_ok.
Qed.

Lemma for_list_ok {A B} (f : A -> res B) (P : A -> B -> Prop) l : (forall x, In x l -> exists y, f x = Ok y /\ P x y) ->
  exists ys, for_list l f = Ok ys /\ Forall2 P l ys.
Proof.
  induction l as [|x l IH]; intros H; cbn [for_list].
  - exists []. split; [reflexivity|constructor].
  - destruct (H x (or_introl eq_refl)) as (y & -> & Hp). destruct IH as (ys & -> & Hys); [intros z Hz; apply H; right; exact Hz|].
    exists (y :: ys). cbn [bind]. split; [reflexivity|]. constructor; assumption.
Qed.
Lemma for_list_passes {E} m (pp : pubparam E) hs {A B} (f : A -> res B) (P : A -> B -> Prop) l (k : list B -> res unit) :
  (forall x, In x l -> (exists y, f x = Ok y /\ P x y) \/ (f x = Panic P_PRNG /\ breaks m pp hs)) ->
  (forall ys, Forall2 P l ys -> passes m pp hs (k ys)) ->
  passes m pp hs (let! ys := for_list l f in k ys).
Proof.
  intros Hf Hk. assert (H : (exists ys, for_list l f = Ok ys /\ Forall2 P l ys) \/ (for_list l f = Panic P_PRNG /\ breaks m pp hs)).
  { clear Hk. induction l as [|x l IH]; cbn [for_list].
    - left. exists []. split; [reflexivity|constructor].
    - destruct (Hf x (or_introl eq_refl)) as [(y & -> & Hp)|[-> Hb]]; [|right; auto]. cbn [bind].
      destruct IH as [(ys & -> & Hys)|[-> Hb]]; [intros z Hz; apply Hf; right; exact Hz| |right; auto].
      left. exists (y :: ys). cbn [bind]. split; [reflexivity|]. constructor; assumption. }
  destruct H as [(ys & -> & Hys)|[-> Hb]]; cbn [bind]; [apply Hk, Hys|right; auto].
Qed.
Lemma iter_ok {S} (l : list S) body : forall ds c, (c < length l)%nat ->
  (forall s d, In s l -> In d ds -> body s d = Ok tt) -> iter l c ds body = Ok tt.
Proof.
  induction ds as [|d ds IH]; intros c Hc H; cbn [iter]; [reflexivity|].
  destruct (nth_error l c) as [s|] eqn:Es; [|apply nth_error_None in Es; lia].
  rewrite (H s d (nth_error_In _ _ Es) (or_introl eq_refl)). cbn [bind].
  destruct l as [|a l']; [cbn in Hc; lia|]. apply IH; [apply Nat.mod_upper_bound; cbn; lia|].
  intros s' d' Hs Hd. apply H; [exact Hs|right; exact Hd].
Qed.

Lemma bench_key_gen : forall (E : env) (L : env_laws E) (pp : pubparam E) kseeds,
  pp_ok pp -> supported (pp_cs pp) -> Forall (fun s => (32 <= length s)%nat) kseeds -> bench_keygen pp kseeds = Ok tt.
Proof.
  intros E L pp kseeds Hpp Hcs Hs. unfold bench_keygen. induction Hs as [|s l Hs _ IH]; cbn [for_each]; [reflexivity|].
  destruct (keygen_now L Debug pp s Hpp Hs Hcs) as (pk & sk & pop & -> & _). cbn [unwrap bind]. exact IH.
Qed.

Lemma bench_aggregating : forall (E : env) (L : env_laws E) m (pp : pubparam E) msg kseeds,
  pp_ok pp -> (pp_depth pp <= 32)%nat -> supported (pp_cs pp) -> kseeds <> [] -> Forall (fun s => (32 <= length s)%nat) kseeds ->
  bench_aggregation m pp msg kseeds = Ok tt.
Proof.
  intros E L m pp msg kseeds Hpp Hd Hcs Hne Hs. rewrite Forall_forall in Hs. unfold bench_aggregation.
  destruct (for_list_ok (fun s => let! (pk, sk, _) := unwrap (key_gen s pp) in let! (sig, _) := mut_ok (sign m 1 pp msg []) sk in Ok (pk, sig))
    (fun _ ps => verify m (snd ps) (fst ps) pp msg = Ok true /\ sig_time (snd ps) = 1 /\ pk_cs (fst ps) = pp_cs pp /\ g2_insub (pk_pk (fst ps)) = true) kseeds)
    as (l & -> & Hl).
  - intros s Hi. destruct (keygen_now L m pp s Hpp (Hs s Hi) Hcs) as (pk & sk & pop & Hk & Hr & Ht & Hw & _). rewrite Hk. cbn [unwrap bind].
    destruct (reachable_good L m pp pk sk Hpp (reached_reachable _ _ _ _ _ _ Hr)) as (x & _ & Hpk & Hg & Hcv).
    pose proof (sign_cases L m pp x sk 1 msg [] Hpp Hcv Hg) as H. rewrite Ht, N.eqb_refl in H. destruct H as (sg & H & Hgs).
    unfold mut_ok. rewrite H. cbn [bind]. exists (pk, sg). split; [reflexivity|]. cbn [fst snd].
    destruct (keygen_fields E L pp s pk sk pop Hk) as (_ & _ & _ & Hpc & _). destruct Hw as [_ Hsub].
    split; [rewrite Hpk; apply (good_sig_verifies L m pp x 1 msg sg); auto|]. split; [|split; [exact Hpc|exact Hsub]].
    apply (good_sig_fields pp x 1 msg sg Hgs).
  - cbn [bind]. set (sw := map (fun ps : pubkey E * signature E => (snd ps, fst ps)) l).
    destruct (aggregate_verifies E L m m pp sw 1 msg Hpp) as (sg & Ha & Hv).
    + unfold sw. destruct Hl; [contradiction|discriminate].
    + unfold sw. apply Forall_map. apply Forall_forall. intros ps Hps. destruct (in_zip _ _ _ _ Hl Hps) as (s & _ & H). exact H.
    + unfold sw in Ha, Hv. rewrite map_map in Ha, Hv. cbn [fst snd] in Ha, Hv.
      replace (map (fun x : pubkey E * signature E => snd x) l) with (map snd l) in Ha by reflexivity.
      replace (map (fun x : pubkey E * signature E => fst x) l) with (map fst l) in Hv by reflexivity.
      rewrite Ha. cbn [unwrap bind]. rewrite Hv. reflexivity.
Qed.

Lemma range_app a b c : (a <= b)%nat -> (b <= c)%nat -> range a c = range a b ++ range b c.
Proof.
  intros H1 H2. unfold range. replace (c - a)%nat with (b - a + (c - b))%nat by lia. rewrite seq_app, map_app.
  replace (a + (b - a))%nat with b by lia. reflexivity.
Qed.
Definition ups (n : nat) : list op := map (fun j => OpUpdate j []) (range 2 n).
Lemma ups_step i n : (i + 2 < n)%nat -> ups n = ups (i + 2) ++ OpUpdate (N.of_nat (i + 2)) [] :: map (fun j => OpUpdate j []) (range (i + 3) n).
Proof.
  intros H. unfold ups. rewrite (range_app 2 (i + 2) n) by lia. rewrite map_app. f_equal.
  rewrite (range_cons (i + 2) n) by lia. replace (S (i + 2)) with (i + 3)%nat by lia. reflexivity.
Qed.
Lemma ups_snoc i : ups (i + 3) = ups (i + 2) ++ [OpUpdate (N.of_nat (i + 2)) []].
Proof. rewrite (ups_step i (i + 3)) by lia. rewrite (range_nil (i + 3) (i + 3)) by lia. reflexivity. Qed.

Lemma bench_seq : forall (E : env) (L : env_laws E) m (pp : pubparam E) kseeds rounds,
  pp_ok pp -> (pp_depth pp <= 32)%nat -> supported (pp_cs pp) -> Forall (fun s => (32 <= length s)%nat) kseeds ->
  (length rounds <= length kseeds)%nat -> N.of_nat (length rounds) < last_time (pp_depth pp) ->
  passes m pp (map (fun s => in_turn s [] (length rounds + 2)) kseeds) (bench_sk_update_seq m pp kseeds rounds).
Proof.
  intros E L m pp kseeds rounds Hpp Hd Hcs Hs Hlen Hlt. rewrite Forall_forall in Hs. unfold bench_sk_update_seq.
  set (n := length rounds) in *. set (hs := map (fun s => in_turn s [] (n + 2)) kseeds).
  set (P := fun i s sk => exists pk : pubkey E, reached m pp s (ups (i + 2)) pk sk /\ sec_time sk = N.of_nat (i + 1)).
  assert (Hl32 : last_time (pp_depth pp) < 2^32).
  { unfold last_time, pow2. assert (H2 : 2^N.of_nat (pp_depth pp) <= 2^32) by (apply N.pow_le_mono_r; lia). lia. }
  assert (Hup : forall i s sk, (i < n)%nat -> In s kseeds -> P i s sk ->
    (exists sk', (let! t := add64 m (sec_time sk) 1 in updated m pp t [] sk) = Ok sk' /\ P (S i) s sk')
    \/ ((let! t := add64 m (sec_time sk) 1 in updated m pp t [] sk) = Panic P_PRNG /\ breaks m pp hs)).
  { intros i s sk Hi Hin (pk & Hr & Ht). rewrite (add64_time m (sec_time sk)) by lia. cbn [bind].
    replace (sec_time sk + 1) with (N.of_nat (i + 2)) by lia.
    destruct (updated_cases L m pp s (ups (i + 2)) pk sk (N.of_nat (i + 2)) [] Hpp Hd Hr ltac:(lia)) as [(sk' & -> & _ & Hr' & Ht')|[-> Hb]].
    - left. exists sk'. split; [reflexivity|]. exists pk. replace (S i + 2)%nat with (i + 3)%nat by lia. rewrite ups_snoc. split; [exact Hr'|]. lia.
    - right. split; [reflexivity|]. exists s, (ups (i + 2)), (OpUpdate (N.of_nat (i + 2)) []), (map (fun j => OpUpdate j []) (range (i + 3) (n + 2))).
      split; [|exact Hb]. rewrite <- (ups_step i (n + 2)) by lia. apply in_map_iff. exists s. split; [reflexivity|exact Hin]. }
  assert (Hseq : forall rs i sks, (i + length rs = n)%nat -> Forall2 (P i) kseeds sks -> passes m pp hs (seq_rounds m pp i rs sks)).
  { induction rs as [|ds rs IH]; intros i sks Hi Hf; cbn [seq_rounds]; [apply passes_ok|]. cbn [length] in Hi.
    pose proof (zip_length _ _ _ Hf) as Hz.
    destruct (nth_error sks i) as [sk|] eqn:Es; [|apply nth_error_None in Es; change bytes with (list N) in *; lia].
    destruct (in_zip _ _ _ _ Hf (nth_error_In _ _ Es)) as (s & _ & (pk & _ & Ht)).
    rewrite (add64_time m (sec_time sk)) by lia. cbn [bind].
    match goal with |- passes _ _ _ (let! _ := ?a in ?b) => apply (passes_bind m pp hs a (fun _ => b)) end.
    - apply iter_passes; [change bytes with (list N) in *; lia|]. intros sk' d Hsk _. destruct (in_zip _ _ _ _ Hf Hsk) as (s' & Hs' & HP).
      destruct (Hup i s' sk' ltac:(lia) Hs' HP) as [(sk2 & Hu & _)|[Hu Hb]]; destruct HP as (pk' & _ & Ht');
        rewrite (add64_time m (sec_time sk')) in * by lia; cbn [bind] in *; rewrite Hu; [apply passes_ok|right; auto].
    - assert (Hall : (exists ys, for_list sks (fun sk => let! t := add64 m (sec_time sk) 1 in updated m pp t [] sk) = Ok ys /\ Forall2 (P (S i)) kseeds ys)
        \/ (for_list sks (fun sk => let! t := add64 m (sec_time sk) 1 in updated m pp t [] sk) = Panic P_PRNG /\ breaks m pp hs)).
      { assert (Hup' : forall s sk, In s kseeds -> P i s sk -> _) by (intros s' sk'; apply Hup; lia).
        clearbody hs P. clear - Hf Hup'. induction Hf as [|s sk ks sks HP Hf IH]; cbn [for_list].
        - left. exists []. split; [reflexivity|constructor].
        - destruct (Hup' s sk (or_introl eq_refl) HP) as [(sk' & -> & HP')|[-> Hb]]; [|right; auto]. cbn [bind].
          destruct IH as [(ys & -> & Hys)|[-> Hb]]; [intros s2 sk2 Hin; apply Hup'; right; exact Hin| |right; auto].
          left. exists (sk' :: ys). cbn [bind]. split; [reflexivity|]. constructor; assumption. }
      destruct Hall as [(ys & -> & Hys)|[-> Hb]]; cbn [bind]; [apply IH; [lia|exact Hys]|right; auto]. }
  destruct (for_list_ok (fresh_key pp) (P 0%nat) kseeds) as (sks & -> & Hf).
  - intros s Hi. unfold fresh_key. destruct (keygen_now L m pp s Hpp (Hs s Hi) Hcs) as (pk & sk & pop & -> & Hr & Ht & _). cbn [unwrap bind].
    exists sk. split; [reflexivity|]. exists pk. split; [exact Hr|exact Ht].
  - cbn [bind]. apply Hseq; [reflexivity|exact Hf].
Qed.

Lemma bench_leaf : forall (E : env) (L : env_laws E) m (pp : pubparam E) t0 kseeds ds ds',
  pp_ok pp -> (pp_depth pp <= 32)%nat -> supported (pp_cs pp) -> kseeds <> [] -> Forall (fun s => (32 <= length s)%nat) kseeds ->
  2 <= t0 < last_time (pp_depth pp) ->
  passes m pp (map (fun s => (s, [OpUpdate t0 []; OpUpdate (t0 + 1) []])) kseeds) (bench_sk_update_leaf m pp t0 kseeds ds ds').
Proof.
  intros E L m pp t0 kseeds ds ds' Hpp Hd Hcs Hne Hs Ht0. rewrite Forall_forall in Hs. unfold bench_sk_update_leaf.
  assert (Hl32 : last_time (pp_depth pp) < 2^32).
  { unfold last_time, pow2. assert (H2 : 2^N.of_nat (pp_depth pp) <= 2^32) by (apply N.pow_le_mono_r; lia). lia. }
  set (hs := map (fun s => (s, [OpUpdate t0 []; OpUpdate (t0 + 1) []])) kseeds).
  assert (Hhs : forall s, In s kseeds -> In (s, [OpUpdate t0 []; OpUpdate (t0 + 1) []]) hs) by (intros s Hi; apply in_map_iff; exists s; auto).
  apply (for_list_passes m pp hs (fun s => let! sk := fresh_key pp s in updated m pp t0 [] sk)
    (fun s sk => exists pk, reached m pp s [OpUpdate t0 []] pk sk /\ sec_time sk = t0) kseeds
    (fun sks => let! _ := match sks with [] => Panic P_INDEX | sk :: _ => add64 m (sec_time sk) 1 end in
       let! _ := iter sks 0 ds (fun sk _ => let! _ := unwrap (sk_digest sk) in Ok tt) in
       iter sks 0 ds' (fun sk _ => let! t := add64 m (sec_time sk) 1 in let! _ := updated m pp t [] sk in Ok tt))).
  - intros s Hi. unfold fresh_key. destruct (keygen_now L m pp s Hpp (Hs s Hi) Hcs) as (pk & sk & pop & -> & Hr & Ht & _). cbn [unwrap bind].
    destruct (updated_cases L m pp s [] pk sk t0 [] Hpp Hd Hr ltac:(lia)) as [(sk' & -> & _ & Hr' & Ht')|[-> Hb]].
    + left. exists sk'. split; [reflexivity|]. exists pk. auto.
    + right. split; [reflexivity|]. exists s, [], (OpUpdate t0 []), [OpUpdate (t0 + 1) []]. auto.
  - intros sks Hf. pose proof (zip_length _ _ _ Hf) as Hz. destruct sks as [|sk0 sks]; [destruct kseeds; [contradiction|discriminate Hz]|].
    destruct (in_zip _ _ _ _ Hf (or_introl eq_refl)) as (s0 & _ & (pk0 & _ & Ht1)). rewrite (add64_time m (sec_time sk0)) by lia. cbn [bind].
    match goal with |- passes _ _ _ (let! _ := ?a in ?b) => apply (passes_bind m pp hs a (fun _ => b)) end; apply iter_passes; cbn [length]; try lia;
      intros sk d Hsk _; destruct (in_zip _ _ _ _ Hf Hsk) as (s & Hi & (pk & Hr & Ht)).
    + rewrite (reachable_digest E L m pp pk sk Hpp Hd (reached_reachable _ _ _ _ _ _ Hr)). apply passes_ok.
    + rewrite (add64_time m (sec_time sk)) by lia. cbn [bind]. rewrite Ht.
      destruct (updated_cases L m pp s [OpUpdate t0 []] pk sk (t0 + 1) [] Hpp Hd Hr ltac:(lia)) as [(sk' & -> & _)|[-> Hb]].
      * apply passes_ok.
      * right. split; [reflexivity|]. exists s, [OpUpdate t0 []], (OpUpdate (t0 + 1) []), []. auto.
Qed.

Lemma fresh_ssk_ok {E} (L : env_laws E) (pp : pubparam E) s : pp_ok pp -> supported (pp_cs pp) -> (32 <= length s)%nat ->
  exists x r, fresh_ssk pp s = Ok (honest_ssk pp x 1 [] r).
Proof.
  intros Hpp Hcs Hs. unfold fresh_ssk, fresh_key. destruct (keygen_now L Debug pp s Hpp Hs Hcs) as (pk & sk & pop & -> & Hr & Ht & _). cbn [unwrap bind].
  destruct (reachable_good L Debug pp pk sk Hpp (reached_reachable _ _ _ _ _ _ Hr)) as (x & _ & _ & Hg & _).
  destruct (good_sk_head pp x sk Hg) as (v & r & l & Hn & He). rewrite Ht in Hn, He. pose proof (ppo_depth pp Hpp) as Hd.
  pose proof (spine_node (pp_depth pp) 0 ltac:(lia)) as Hn0. rewrite (node_at_fun _ _ _ _ Hn Hn0) in He.
  exists x, r. unfold first_ssk. rewrite He. reflexivity.
Qed.
Lemma delegate_next_ok {E} (L : env_laws E) m (pp : pubparam E) x i r : pp_ok pp -> (S i < pp_depth pp)%nat ->
  delegate_next m pp (honest_ssk pp x (N.of_nat (S i)) (repeat 1 i) r) = Ok (honest_ssk pp x (N.of_nat (S (S i))) (repeat 1 (S i)) r).
Proof.
  intros Hpp Hi. pose proof (ppo_depth pp Hpp) as Hd. unfold delegate_next. cbn [honest_ssk sk_t]. rewrite (add64_time m (N.of_nat (S i))) by lia. cbn [bind].
  replace (N.of_nat (S i) + 1) with (N.of_nat (S (S i))) by lia. unfold run_mut.
  assert (He : repeat 1 (S i) = repeat 1 i ++ [1]) by apply repeat_cons.
  assert (Hn : node_at (pp_depth pp) (N.of_nat (S (S i))) (repeat 1 i ++ [1])) by (rewrite <- He; apply spine_node; exact Hi).
  rewrite He. rewrite (delegate_honest L m pp x _ _ _ [1] r Hpp (spine_node (pp_depth pp) i ltac:(lia)) Hn ltac:(discriminate)). reflexivity.
Qed.

Lemma bench_delegating : forall (E : env) (L : env_laws E) m (pp : pubparam E) kseeds rounds,
  pp_ok pp -> supported (pp_cs pp) -> Forall (fun s => (32 <= length s)%nat) kseeds ->
  (length rounds <= length kseeds)%nat -> (length rounds < pp_depth pp)%nat ->
  bench_ssk_delegate m pp kseeds rounds = Ok tt.
Proof.
  intros E L m pp kseeds rounds Hpp Hcs Hs Hlen Hlt. rewrite Forall_forall in Hs. unfold bench_ssk_delegate. pose proof (ppo_depth pp Hpp) as Hd.
  set (P := fun i (_ : bytes) ssk => exists x r, ssk = honest_ssk pp x (N.of_nat (S i)) (repeat 1 i) r).
  destruct (for_list_ok (fresh_ssk pp) (P 0%nat) kseeds) as (ssks & -> & Hf).
  { intros s Hi. destruct (fresh_ssk_ok L pp s Hpp Hcs (Hs s Hi)) as (x & r & ->). eexists. split; [reflexivity|]. exists x, r. reflexivity. }
  cbn [bind]. assert (H0 : (0 + length rounds < pp_depth pp)%nat) by lia. assert (H1 : (0 + length rounds <= length kseeds)%nat) by lia.
  clear Hlen Hlt. revert H0 H1 Hf. generalize 0%nat as i. revert ssks. induction rounds as [|ds rounds IH]; intros ssks i H0 H1 Hf; cbn [delegate_rounds]; [reflexivity|].
  cbn [length] in H0, H1. pose proof (zip_length _ _ _ Hf) as Hz.
  destruct (nth_error ssks i) as [ssk|] eqn:Es; [|apply nth_error_None in Es; change bytes with (list N) in *; lia].
  destruct (in_zip _ _ _ _ Hf (nth_error_In _ _ Es)) as (s & _ & (x & r & ->)). cbn [honest_ssk sk_t].
  rewrite (add64_time m (N.of_nat (S i))) by lia. cbn [bind].
  rewrite (iter_ok ssks (fun ssk _ => let! _ := delegate_next m pp ssk in Ok tt) ds 0); [|change bytes with (list N) in *; lia|].
  2:{ intros ssk' d Hin _. destruct (in_zip _ _ _ _ Hf Hin) as (s' & _ & (x' & r' & ->)). rewrite (delegate_next_ok L m pp x' i r' Hpp ltac:(lia)). reflexivity. }
  cbn [bind]. assert (Hall : exists ys, for_list ssks (delegate_next m pp) = Ok ys /\ Forall2 (P (S i)) kseeds ys).
  { assert (Hi : (S i < pp_depth pp)%nat) by lia. clear - Hf Hi Hpp L. induction Hf as [|s ssk ks ssks (x & r & ->) Hf IH]; cbn [for_list].
    - exists []. split; [reflexivity|constructor].
    - rewrite (delegate_next_ok L m pp x i r Hpp Hi). cbn [bind]. destruct IH as (ys & -> & Hys). cbn [bind].
      eexists. split; [reflexivity|]. constructor; [exists x, r; reflexivity|exact Hys]. }
  destruct Hall as (ys & -> & Hys). cbn [bind]. apply (IH ys (S i)); [lia|lia|exact Hys].
Qed.

Lemma bench_randomizing : forall (E : env) (L : env_laws E) m (pp : pubparam E) kseed rs rs',
  pp_ok pp -> supported (pp_cs pp) -> (32 <= length kseed)%nat -> (2 <= pp_depth pp)%nat -> (length rs < pp_depth pp)%nat ->
  bench_ssk_leveled_randomization m pp kseed rs = Ok tt /\ bench_ssk_leaf_randomization m pp kseed rs' = Ok tt.
Proof.
  intros E L m pp kseed rs rs' Hpp Hcs Hs Hd2 Hlt. pose proof (ppo_depth pp Hpp) as Hd.
  unfold bench_ssk_leveled_randomization, bench_ssk_leaf_randomization.
  destruct (fresh_ssk_ok L pp kseed Hpp Hcs Hs) as (x & r & ->). cbn [bind]. split.
  - change 1 with (N.of_nat 1). change (@nil N) with (repeat 1 0). assert (H0 : (0 + length rs < pp_depth pp)%nat) by lia. clear Hlt. revert H0. generalize 0%nat as i. revert r.
    induction rs as [|r1 rs IH]; intros r i H0; cbn [rand_rounds]; [reflexivity|]. cbn [length] in H0. unfold run_mut at 1.
    rewrite (randomization_honest L m pp x (N.of_nat (S i)) (repeat 1 i) r r1 Hpp (spine_node (pp_depth pp) i ltac:(lia))). cbn [unwrap bind].
    rewrite (delegate_next_ok L m pp x i r Hpp ltac:(lia)). cbn [bind]. apply IH. lia.
  - assert (Hn : node_at (pp_depth pp) (N.of_nat (pp_depth pp)) (repeat 1 (pp_depth pp - 1))).
    { replace (pp_depth pp) with (S (pp_depth pp - 1)) at 2 by lia. apply spine_node. lia. }
    assert (Hw : repeat 1 (pp_depth pp - 1) <> []) by (destruct (pp_depth pp - 1)%nat eqn:Ed; [lia|discriminate]).
    unfold run_mut. rewrite (delegate_honest L m pp x 1 [] (N.of_nat (pp_depth pp)) _ r Hpp (spine_node (pp_depth pp) 0 ltac:(lia)) Hn Hw).
    cbn [unwrap bind app]. revert r. induction rs' as [|r1 rs' IH]; intros r; cbn [rand_again]; [reflexivity|]. unfold run_mut.
    rewrite (randomization_honest L m pp x _ _ r r1 Hpp Hn). cbn [unwrap bind]. apply IH.
Qed.

Lemma bench_gamma : forall m d n, (d < 64)%nat -> N.of_nat n <= last_time d + 1 -> bench_gamma_list m d n = Ok tt.
Proof.
  intros m d n Hd Hn. unfold bench_gamma_list.
  assert (H : forall t, In t (range 1 n) -> 1 <= t <= last_time d).
  { intros t Ht. unfold range in Ht. apply in_map_iff in Ht as (k & <- & Hk). apply in_seq in Hk. lia. }
  induction (range 1 n) as [|t l IH]; cbn [for_each]; [reflexivity|].
  destruct (node_at_ex d t (H t (or_introl eq_refl))) as (v & Hv). rewrite (proj2 (tv_init_ok m d t v Hd) Hv). cbn [unwrap bind].
  destruct (gamma_list_spec m d t v Hd Hv) as (g & -> & _). cbn [unwrap bind]. apply IH. intros t' Ht'. apply H. right. exact Ht'.
Qed.

Lemma aged_dies : forall (E : env) (L : env_laws E) m (pp : pubparam E) kseed msg,
  pp_ok pp -> (2 <= pp_depth pp <= 32)%nat -> supported (pp_cs pp) -> (32 <= length kseed)%nat ->
  exists d d', bench_key_update_next m pp [(kseed, d)] [] = Panic P_ASSERT /\ bench_verify m pp msg [(kseed, d')] [] [] = Panic P_ASSERT.
Proof.
  intros E L m pp kseed msg Hpp Hd Hcs Hs. pose proof (last_time_3 pp Hd) as Hl3. exists 0, 0.
  split.
  - unfold bench_key_update_next. cbn [for_list]. rewrite (aged_key_bad L m pp Hpp Hd Hcs 1 (kseed, 0)); [reflexivity|lia|exact Hs|].
    unfold drawn. cbn [snd]. rewrite N.mod_0_l by lia. lia.
  - assert (Hz : ~ 1 <= drawn pp 2 (kseed, 0)) by (unfold drawn; cbn [snd]; rewrite N.mod_0_l by lia; lia).
    unfold bench_verify. cbn [for_list]. rewrite (signed_bad L m pp msg (kseed, 0) Hpp Hd Hcs Hs Hz). reflexivity.
Qed.
