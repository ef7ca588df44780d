(** Proofs for C134. *)
From Coq Require Import String.
From Verif Require Import Base Env Time Prng SpecTime SpecPrng SubKey SecretKey Keys Sig SpecKey SpecUpdate
  TimeFacts GroupFacts SubKeyFacts UpdateFacts KeyFacts Api HistoryFacts IO Serdes SpecSer IOFacts SerFacts SerProps ProgProps Hygiene SpecHyg HygFacts HygProps
  VecMem SpecHv ReadStack SpecReadStack ReadStackProps CallStack CallStackProps HistStack SpecHistStack.
From Coq Require Import Lia ZifyBool ZifyNat ZifyN.
Local Open Scope N_scope.

Lemma moves_ret {E A} (sk : seckey E) (a : A) : moves (sret a) sk (Ok a) sk [].
Proof. intros [f D]. cbn. rewrite app_nil_r. reflexivity. Qed.
Lemma moves_lift {E A} (sk : seckey E) (r : res A) : moves (slift r) sk r sk [].
Proof. intros [f D]. cbn. rewrite app_nil_r. reflexivity. Qed.
Lemma moves_get {E A} (k : _ -> km E A) sk r sk' d : (forall s, moves (k (sk, s)) sk r sk' d) -> moves (sbind sget k) sk r sk' d.
Proof. intros H s. unfold sbind, sget. apply H. Qed.
Lemma moves_bind {E A B} (e : km E A) (k : A -> km E B) sk a sk1 d r sk' d' :
  moves e sk (Ok a) sk1 d -> moves (k a) sk1 r sk' d' -> moves (sbind e k) sk r sk' (d ++ d').
Proof. intros H1 H2 [f D]. unfold sbind. rewrite H1. cbn [fst snd]. rewrite H2. cbn [fst snd]. rewrite app_assoc. reflexivity. Qed.
Lemma moves_eq {E A} (h : km E A) sk r sk' d d' : moves h sk r sk' d -> d = d' -> moves h sk r sk' d'.
Proof. intros H <-. exact H. Qed.
(** A step and the step without memory. *)
Definition follows {E A} (h : km E A) (f : st (seckey E) A) : Prop := forall sk, exists d, moves h sk (fst (f sk)) (snd (f sk)) d.
Lemma follows_bind {E A B} (e : km E A) f (k : A -> km E B) g : follows e f -> (forall a, follows (k a) (g a)) -> follows (sbind e k) (sbind f g).
Proof.
  intros H1 H2 sk. destruct (H1 sk) as (d & H). unfold sbind at 2 3. destruct (f sk) as [[a|x|p] sk1]; cbn [fst snd] in *.
  - destruct (H2 a sk1) as (d' & H'). exists (d ++ d'). exact (moves_bind _ _ _ _ _ _ _ _ _ H H').
  - exists d. intros s. unfold sbind. rewrite H. reflexivity.
  - exists d. intros s. unfold sbind. rewrite H. reflexivity.
Qed.
Lemma follows_ret {E A} (a : A) : follows (E := E) (sret a) (sret a).
Proof. intros sk. exists []. apply moves_ret. Qed.
Lemma follows_lift {E A} (r : res A) : follows (E := E) (slift r) (slift r).
Proof. intros sk. exists []. apply moves_lift. Qed.
Lemma follows_get {E A} (k : _ -> km E A) g : (forall sk s, exists d, moves (k (sk, s)) sk (fst (g sk sk)) (snd (g sk sk)) d /\ forall s', k (sk, s') = k (sk, s)) -> follows (sbind sget k) (sbind sget g).
Proof.
  intros H sk. destruct (H sk ([], [])) as (d & Hd & Hk). exists d. apply moves_get. intros s. rewrite Hk. exact Hd.
Qed.
Lemma no_change_moves {E A} (h : seckey E -> hm E A) sk r d : gives (h sk) r d -> moves (no_change h) sk r sk d.
Proof. intros H s. unfold no_change. cbn [fst snd]. rewrite H. reflexivity. Qed.
Lemma change_moves {E} (h : seckey E -> hm E (seckey E)) sk sk' d : gives (h sk) (Ok sk') d -> moves (change h) sk (Ok tt) sk' d.
Proof. intros H s. unfold change. cbn [fst snd]. rewrite H. reflexivity. Qed.
Lemma change_follows {E} (h : seckey E -> hm E (seckey E)) f :
  (forall sk, exists d, gives (h sk) (run_mut f sk) d) -> (forall sk, fst (f sk) <> Ok tt -> snd (f sk) = sk) -> follows (change h) f.
Proof.
  intros H1 H2 sk. destruct (H1 sk) as (d & H). exists d. intros s. unfold change. cbn [fst snd]. rewrite H. unfold run_mut. specialize (H2 sk).
  destruct (f sk) as [[[]|x|p] sk']; cbn [fst snd] in *; [reflexivity|rewrite H2 by discriminate; reflexivity..].
Qed.
Lemma update_follows {E} (L : env_laws E) m (pp : pubparam E) t seed : follows (change (update_h m pp t seed)) (update m pp t seed).
Proof.
  apply change_follows; [intros sk; destruct (update_h_spec L m pp t seed sk) as (d & H & _); eauto|].
  intros sk Hn. pose proof (update_atomic m pp sk t seed) as Ha. destruct (update m pp t seed sk) as [[[]|e|p] sk']; [contradiction Hn; reflexivity|exact Ha..].
Qed.
Lemma sign_bytes_moves {E} (L : env_laws E) m (pp : pubparam E) t msg sk :
  exists d, moves (no_change (fun sk => sign_bytes_h m sk t pp msg)) sk (sign_bytes m sk t pp msg) sk d
    /\ forall s, sign_bytes m sk t pp msg = Ok s -> d = sign_cells pp sk t msg.
Proof.
  destruct (sign_bytes_h_spec L m sk t pp msg) as (d & H & Hd). exists d. split; [exact (no_change_moves (fun sk => sign_bytes_h m sk t pp msg) sk _ _ H)|].
  intros s Hs. rewrite Hs in Hd. exact Hd.
Qed.
Lemma sign_follows {E} (L : env_laws E) m (pp : pubparam E) t msg seed : follows (sign_h m t pp msg seed) (sign m t pp msg seed).
Proof.
  apply follows_get. intros sk s. cbn [fst].
  assert (H : follows (if t <? sec_time sk then slift (Err E_TIME_STAMP)
     else do! _ <- (if sec_time sk <? t then change (update_h m pp t seed) else sret tt); no_change (fun sk => sign_bytes_h m sk t pp msg))
    (if t <? sec_time sk then slift (Err E_TIME_STAMP)
     else do! _ <- (if sec_time sk <? t then update m pp t seed else sret tt); do! sk <- sget; slift (sign_bytes m sk t pp msg))).
  { destruct (t <? sec_time sk); [apply follows_lift|]. apply follows_bind.
    - destruct (sec_time sk <? t); [exact (update_follows L m pp t seed)|apply follows_ret].
    - intros _ sk1. destruct (sign_bytes_moves L m pp t msg sk1) as (d & H & _). exists d. exact H. }
  destruct (H sk) as (d & Hd). exists d. split; [exact Hd|reflexivity].
Qed.
Lemma sign_then_update_follows {E} (L : env_laws E) m (pp : pubparam E) t msg seed : follows (sign_then_update_h m t pp msg seed) (sign_then_update m t pp msg seed).
Proof.
  apply follows_get. intros sk s. cbn [fst].
  assert (Hx : exists d, moves (if negb (sec_time sk =? t) then slift (Err E_TIME_STAMP)
     else do! p <- no_change (fun sk => sign_bytes_h m sk t pp msg); do! t1 <- slift (add64 m t 1); do! _ <- change (update_h m pp t1 seed); sret p) sk
     (fst ((if negb (sec_time sk =? t) then slift (Err E_TIME_STAMP)
     else do! p <- slift (sign_bytes m sk t pp msg); do! t1 <- slift (add64 m t 1); do! _ <- update m pp t1 seed; sret p) sk))
     (snd ((if negb (sec_time sk =? t) then slift (Err E_TIME_STAMP)
     else do! p <- slift (sign_bytes m sk t pp msg); do! t1 <- slift (add64 m t 1); do! _ <- update m pp t1 seed; sret p) sk)) d).
  { destruct (negb (sec_time sk =? t)); [exists []; apply moves_lift|].
    destruct (sign_bytes_moves L m pp t msg sk) as (d & H & _). unfold sbind at 4 8, slift at 2 4. cbn [fst snd].
    destruct (sign_bytes m sk t pp msg) as [p|e|p].
    - assert (Hf : follows (do! t1 <- slift (add64 m t 1); do! _ <- change (update_h m pp t1 seed); sret p)
                (do! t1 <- slift (add64 m t 1); do! _ <- update m pp t1 seed; sret p)).
      { apply follows_bind; [apply follows_lift|]. intros t1. apply follows_bind; [exact (update_follows L m pp t1 seed)|]. intros _. apply follows_ret. }
      destruct (Hf sk) as (d' & H'). exists (d ++ d'). exact (moves_bind _ _ _ _ _ _ _ _ _ H H').
    - exists d. intros s'. unfold sbind. rewrite H. reflexivity.
    - exists d. intros s'. unfold sbind. rewrite H. reflexivity. }
  destruct Hx as (d & Hd). exists d. split; [exact Hd|reflexivity].
Qed.
Lemma reload_follows {E : env} c : follows (E := E) (reload_h c) (reload c).
Proof.
  apply change_follows.
  - intros sk. destruct (sk_serialize_h_spec sk c (vec_writer [])) as (d & H & _). unfold reload, run_mut at 1.
    rewrite to_vec_run. destruct (run_mut (sk_serialize sk c) (vec_writer [])) as [w|e|p]; cbn [bind].
    + destruct (read_stack_same E c (rpush (w_out w) [])) as (d2 & H2 & _). exists (d ++ d2).
      eapply gives_eq; [exact (gives_bind _ (fun w => read_h (sk_deserialize_h c) (w_out w)) _ _ _ _ H (gives_read _ _ _ _ _ H2))| |reflexivity].
      unfold from_slice. destruct (fst (sk_deserialize (E := E) c (rpush (w_out w) []))); reflexivity.
    + exists d. intros s. unfold sbind. rewrite H. reflexivity.
    + exists d. intros s. unfold sbind. rewrite H. reflexivity.
  - intros sk. unfold reload. destruct (to_vec (sk_serialize sk c)) as [b|e|p]; [|reflexivity..].
    destruct (from_slice (sk_deserialize (E := E) c) b); cbn [fst snd]; [intros Hn; contradiction Hn; reflexivity|reflexivity..].
Qed.
Lemma step_follows {E} (L : env_laws E) m (pp : pubparam E) o : follows (step_h m pp o) (step m pp o).
Proof.
  destruct o as [t seed|t msg seed|t msg|t msg seed|c]; cbn [step_h step].
  - apply follows_bind; [exact (update_follows L m pp t seed)|]. intros _. apply follows_ret.
  - apply follows_bind; [exact (sign_follows L m pp t msg seed)|]. intros s. apply follows_ret.
  - apply follows_bind; [|intros s; apply follows_ret]. intros sk. destruct (sign_present_h_spec L m t pp msg sk) as (d & H & _). exists d.
    replace (snd (sign_present m t pp msg sk)) with sk.
    + exact (no_change_moves (sign_present_h m t pp msg) sk _ _ H).
    + unfold sign_present, sbind, sget, slift. destruct (negb (sec_time sk =? t)); reflexivity.
  - apply follows_bind; [exact (sign_then_update_follows L m pp t msg seed)|]. intros s. apply follows_ret.
  - apply follows_bind; [exact (reload_follows c)|]. intros _. apply follows_ret.
Qed.

(** * The theorems *)
Lemma hist_stack_same : forall (E : env) (L : env_laws E) m (pp : pubparam E) ops sk,
  exists d, forall s, run_h m pp ops (sk, s) = (fst (run m pp ops sk), (snd (run m pp ops sk), (fst s, snd s ++ d))).
Proof.
  intros E L m pp. induction ops as [|o l IH]; intros sk; cbn [run_h run].
  - exists []. intros [f D]. cbn. rewrite app_nil_r. reflexivity.
  - destruct (step_follows L m pp o sk) as (d & H). destruct (step m pp o sk) as [r sk1]. cbn [fst snd] in H.
    destruct (IH sk1) as (d' & H'). exists (d ++ d'). intros s. rewrite H, H'. destruct (run m pp l sk1) as [rs sk2]. cbn [fst snd].
    rewrite app_assoc. reflexivity.
Qed.

Lemma op_leaves : forall (E : env) (L : env_laws E) m (pp : pubparam E) pk o sk x sk1,
  pp_ok pp -> (pp_depth pp <= 32)%nat -> reachable m pp pk sk -> step m pp o sk = (Ok x, sk1) ->
  moves (step_h m pp o) sk (Ok x) sk1 (op_cells pp o sk sk1).
Proof.
  intros E L m pp pk o sk x sk1 Hpp Hd Hr Hs.
  destruct o as [t seed|t msg seed|t msg|t msg seed|c]; cbn [step_h step op_cells] in *; unfold sbind at 1 in Hs.
  - destruct (update m pp t seed sk) as [[[]|e|p] sk2] eqn:Eu; [|discriminate..]. unfold sret in Hs. injection Hs as <- <-.
    rewrite <- (app_nil_r (update_cells _ _ _)). eapply moves_bind; [|apply moves_ret].
    exact (change_moves (update_h m pp t seed) _ _ _ (update_leaves E L m m pp pk sk t seed sk2 Hpp Hr Eu)).
  - destruct (sign m t pp msg seed sk) as [[s|e|p] sk2] eqn:Eu; [|discriminate..]. unfold sret in Hs. injection Hs as <- <-.
    rewrite <- (app_nil_r (_ ++ _)). eapply moves_bind; [|apply moves_ret]. unfold sign_h. apply moves_get. intros s0. cbn [fst].
    unfold sign in Eu. unfold sbind at 1, sget at 1 in Eu. cbn zeta in Eu. destruct (t <? sec_time sk); [discriminate|].
    unfold sbind at 1 in Eu.
    destruct (sec_time sk <? t) eqn:El.
    + destruct (update m pp t seed sk) as [[[]|e|p] sk3] eqn:E3; [|discriminate..]. unfold sbind, sget, slift in Eu.
      injection Eu as E1 <-. eapply moves_bind; [exact (change_moves (update_h m pp t seed) _ _ _ (update_leaves E L m m pp pk sk t seed sk3 Hpp Hr E3))|].
      destruct (sign_bytes_moves L m pp t msg sk3) as (d & H & Hc). rewrite E1 in H. rewrite <- (Hc _ E1). exact H.
    + unfold sret, sbind, sget, slift in Eu. injection Eu as E1 <-. eapply moves_bind; [apply moves_ret|].
      destruct (sign_bytes_moves L m pp t msg sk) as (d & H & Hc). rewrite E1 in H. rewrite <- (Hc _ E1). exact H.
  - destruct (sign_present_h_spec L m t pp msg sk) as (d & H & Hc).
    assert (Hk : snd (sign_present m t pp msg sk) = sk) by (unfold sign_present, sbind, sget, slift; destruct (negb (sec_time sk =? t)); reflexivity).
    destruct (sign_present m t pp msg sk) as [[s|e|p] sk2] eqn:Eu; [|discriminate..]. unfold sret in Hs. injection Hs as <- <-. cbn [fst snd] in *. subst d sk2.
    rewrite <- (app_nil_r (sign_cells _ _ _ _)). eapply moves_bind; [|apply moves_ret]. exact (no_change_moves (sign_present_h m t pp msg) sk _ _ H).
  - destruct (sign_then_update m t pp msg seed sk) as [[s|e|p] sk2] eqn:Eu; [|discriminate..]. unfold sret in Hs. injection Hs as <- <-.
    rewrite <- (app_nil_r (_ ++ _)). eapply moves_bind; [|apply moves_ret]. unfold sign_then_update_h. apply moves_get. intros s0. cbn [fst].
    unfold sign_then_update in Eu. unfold sbind at 1, sget at 1 in Eu. destruct (negb (sec_time sk =? t)); [discriminate|].
    destruct (sign_bytes_moves L m pp t msg sk) as (d & H & Hc). unfold sbind at 1, slift at 1 in Eu.
    destruct (sign_bytes m sk t pp msg) as [p|e|p]; [|discriminate..]. rewrite <- (Hc _ eq_refl).
    unfold sbind at 1, slift at 1 in Eu. destruct (add64 m t 1) as [t1|e|q]; [|discriminate..].
    unfold sbind at 1 in Eu. destruct (update m pp t1 seed sk) as [[[]|e|q] sk3] eqn:E3; [|discriminate..]. unfold sret in Eu. injection Eu as <- <-.
    eapply moves_bind; [exact H|]. rewrite <- (app_nil_l (update_cells _ _ _)), <- (app_nil_r (update_cells _ _ _)).
    eapply moves_bind; [apply moves_lift|]. eapply moves_bind; [|apply moves_ret].
    exact (change_moves (update_h m pp t1 seed) _ _ _ (update_leaves E L m m pp pk sk t1 seed sk3 Hpp Hr E3)).
  - pose proof (reachable_sk_representable E L m pp pk sk Hpp Hd Hr) as Hw. pose proof (reload_wf L c sk Hw) as Hl. rewrite Hl in Hs.
    unfold sret in Hs. injection Hs as <- <-. rewrite <- (app_nil_r (_ ++ _)). eapply moves_bind; [|apply moves_ret].
    apply (change_moves (fun sk => do! w <- sk_serialize_h sk c (vec_writer []); read_h (sk_deserialize_h c) (w_out w))).
    pose proof (serialize_leaves E sk c (vec_writer []) Hw) as H1. unfold reload in Hl. rewrite to_vec_run in Hl.
    destruct (run_mut (sk_serialize sk c) (vec_writer [])) as [w|e|p]; cbn [bind] in Hl; [|discriminate..]. rewrite app_nil_r in H1.
    eapply gives_bind; [exact H1|]. unfold from_slice in Hl.
    destruct (sk_deserialize (E := E) c (rpush (w_out w) [])) as [[k|e|p] r'] eqn:Ek; cbn [fst] in Hl; [|discriminate..].
    assert (k = sk) by congruence. subst k. exact (gives_read _ _ _ _ _ (read_stack_leaves E c _ _ _ Ek)).
Qed.
Lemma moves_err_bind {E A B} (h : km E A) (k : A -> km E B) sk e sk' d : moves h sk (Err e) sk' d -> moves (sbind h k) sk (Err e) sk' d.
Proof. intros H s. unfold sbind. rewrite H. reflexivity. Qed.
Lemma update_h_refused {E} m (pp : pubparam E) sk t seed :
  pp_ok pp -> sec_cs sk = pp_cs pp -> in_range pp sk t = false -> moves (change (update_h m pp t seed)) sk (Err E_TIME_STAMP) sk [].
Proof.
  intros Hpp Hcs Hr. assert (Hg : gives (update_h m pp t seed sk) (Err E_TIME_STAMP) []).
  { unfold update_h. eapply gives_call' with (d := []) (f := []); [|reflexivity]. intros D. rewrite Hcs, N.eqb_refl. cbn [negb].
    pose proof (max_time_ok m (pp_depth pp) (ppo_depth pp Hpp)) as Hmax. unfold sbind at 1, slift at 1.
    destruct (shl64 m (pp_depth pp)) as [p| |]; try discriminate. cbn [bind] in Hmax. unfold sbind at 1, slift at 1. rewrite Hmax.
    unfold in_range in Hr. replace ((t <=? sec_time sk) || (last_time (pp_depth pp) <? t)) with true by lia. unfold slift. rewrite app_nil_r. reflexivity. }
  intros s. unfold change. cbn [fst snd]. rewrite Hg. reflexivity.
Qed.
(** A step of a reachable key that is refused leaves the key as it is, and nothing on the stack unless it is a sign_then_update at the last time. *)
Lemma op_refused : forall (E : env) (L : env_laws E) m (pp : pubparam E) pk o sk e sk1,
  pp_ok pp -> (pp_depth pp <= 32)%nat -> reachable m pp pk sk -> step m pp o sk = (Err e, sk1) ->
  e = E_TIME_STAMP /\ sk1 = sk /\ moves (step_h m pp o) sk (Err e) sk (refused_cells pp o sk).
Proof.
  intros E L m pp pk o sk e sk1 Hpp Hd Hr Hs. destruct (reachable_good L m pp pk sk Hpp Hr) as (x & _ & _ & Hg & Hcs).
  pose proof (gsk_cs _ _ _ Hg) as Hkc.
  destruct o as [t seed|t msg seed|t msg|t msg seed|c]; cbn [step_h step refused_cells] in *; unfold sbind at 1 in Hs.
  - pose proof (update_cases L m pp x sk t seed Hpp Hg) as Hc. destruct (in_range pp sk t) eqn:Ei.
    + destruct Hc as [(k & Hk & _)|[Hk _]]; rewrite Hk in Hs; discriminate.
    + rewrite Hc in Hs. injection Hs as <- <-. split; [reflexivity|]. split; [reflexivity|]. apply moves_err_bind. exact (update_h_refused m pp sk t seed Hpp Hkc Ei).
  - pose proof (sign_cases L m pp x sk t msg seed Hpp Hcs Hg) as Hc. destruct (sec_time sk =? t) eqn:Et.
    { destruct Hc as (s & Hk & _). rewrite Hk in Hs. discriminate. }
    destruct (in_range pp sk t) eqn:Ei.
    { destruct Hc as [(s & k & Hk & _)|[Hk _]]; rewrite Hk in Hs; discriminate. }
    rewrite Hc in Hs. injection Hs as <- <-. split; [reflexivity|]. split; [reflexivity|]. apply moves_err_bind. unfold sign_h. apply moves_get. intros s0. cbn [fst].
    destruct (t <? sec_time sk) eqn:E1; [apply moves_lift|]. replace (sec_time sk <? t) with true by lia.
    apply moves_err_bind. exact (update_h_refused m pp sk t seed Hpp Hkc Ei).
  - pose proof (sign_present_cases L m pp x sk t msg Hpp Hcs Hg) as Hc. destruct (sec_time sk =? t) eqn:Et.
    { destruct Hc as (s & Hk & _). rewrite Hk in Hs. discriminate. }
    rewrite Hc in Hs. injection Hs as <- <-. split; [reflexivity|]. split; [reflexivity|]. apply moves_err_bind.
    apply (no_change_moves (sign_present_h m t pp msg)). unfold sign_present_h. rewrite Et. cbn [negb].
    eapply gives_call' with (d := []) (f := []); [|reflexivity]. intros D. unfold slift. rewrite app_nil_r. reflexivity.
  - pose proof (sign_then_update_cases L m pp x sk t msg seed Hpp Hcs Hg) as Hc. destruct (sec_time sk =? t) eqn:Et.
    + destruct (t <? last_time (pp_depth pp)) eqn:El.
      { destruct Hc as [(s & k & Hk & _)|[Hk _]]; rewrite Hk in Hs; discriminate. }
      rewrite Hc in Hs. injection Hs as <- <-. split; [reflexivity|]. split; [reflexivity|]. apply moves_err_bind.
      unfold sign_then_update_h. apply moves_get. intros s0. cbn [fst]. rewrite Et. cbn [negb].
      destruct (sign_bytes_ok L m pp x sk msg Hpp Hcs Hg) as (s & Hsb & _). replace (sec_time sk) with t in Hsb by lia.
      destruct (sign_bytes_moves L m pp t msg sk) as (d & H & Hx). rewrite (Hx _ Hsb) in H. rewrite Hsb in H.
      rewrite <- (app_nil_r (sign_cells _ _ _ _)). eapply moves_bind; [exact H|]. rewrite <- (app_nil_r []).
      pose proof (gsk_time _ _ _ Hg) as Hb. pose proof (last_time_lt64 (pp_depth pp) (ppo_depth pp Hpp)) as H64.
      assert (Ha : add64 m t 1 = Ok (t + 1)).
      { unfold add64. assert (Hlt : t + 1 < two64) by (unfold two64 in *; lia). replace (t + 1 <? two64) with true by lia. reflexivity. }
      rewrite Ha. eapply moves_bind; [apply moves_lift|]. apply moves_err_bind. apply (update_h_refused m pp sk (t + 1) seed Hpp Hkc).
      unfold in_range. lia.
    + rewrite Hc in Hs. injection Hs as <- <-. split; [reflexivity|]. split; [reflexivity|]. apply moves_err_bind.
      unfold sign_then_update_h. apply moves_get. intros s0. cbn [fst]. rewrite Et. cbn [negb]. apply moves_lift.
  - pose proof (reload_wf L c sk (reachable_sk_representable E L m pp pk sk Hpp Hd Hr)) as Hl. rewrite Hl in Hs. discriminate.
Qed.
Lemma hist_stack_leaves : forall (E : env) (L : env_laws E) m (pp : pubparam E) pk ops sk sk' d,
  pp_ok pp -> (pp_depth pp <= 32)%nat -> reachable m pp pk sk -> hist_leaves m pp ops sk sk' d ->
  snd (run m pp ops sk) = sk' /\ forall s, run_h m pp ops (sk, s) = (fst (run m pp ops sk), (sk', (fst s, snd s ++ d))).
Proof.
  intros E L m pp pk ops sk sk' d Hpp Hd Hr H. revert Hr. induction H as [sk|o l sk sk1 sk' x d Hs H IH|o l sk sk1 sk' e d Hs H IH]; intros Hr.
  - split; [reflexivity|]. intros [f D]. cbn. rewrite app_nil_r. reflexivity.
  - assert (Hr1 : reachable m pp pk sk1).
    { pose proof (reachable_run m pp pk sk [o] Hr) as Q. cbn [run] in Q. rewrite Hs in Q. exact Q. }
    destruct (IH Hr1) as [Hk Hm]. cbn [run run_h]. rewrite Hs. destruct (run m pp l sk1) as [rs sk2] eqn:Er. cbn [fst snd] in *.
    split; [exact Hk|]. intros s. rewrite (op_leaves E L m pp pk o sk x sk1 Hpp Hd Hr Hs s), Hm. cbn [fst snd]. rewrite app_assoc. reflexivity.
  - destruct (op_refused E L m pp pk o sk e sk1 Hpp Hd Hr Hs) as (_ & -> & Hx).
    destruct (IH Hr) as [Hk Hm]. cbn [run run_h]. rewrite Hs. destruct (run m pp l sk) as [rs sk2] eqn:Er. cbn [fst snd] in *.
    split; [exact Hk|]. intros s. rewrite (Hx s), Hm. cbn [fst snd]. rewrite app_assoc. reflexivity.
Qed.
(** Every history without panics has its cells. *)
Lemma hist_leaves_all : forall (E : env) m (pp : pubparam E) ops sk,
  Forall (fun r => match r with Panic _ => False | _ => True end) (fst (run m pp ops sk)) -> exists d, hist_leaves m pp ops sk (snd (run m pp ops sk)) d.
Proof.
  intros E m pp. induction ops as [|o l IH]; intros sk Hf; [exists []; constructor|]. cbn [run] in *.
  destruct (step m pp o sk) as [r sk1] eqn:Es. specialize (IH sk1). destruct (run m pp l sk1) as [rs sk2]. cbn [fst snd] in *.
  inversion Hf as [|a b Hx Hf2]; subst. destruct (IH Hf2) as (d & H). destruct r as [x|e|p]; [eexists; eapply hl_step; eassumption|eexists; eapply hl_refused; eassumption|contradiction].
Qed.
(** The signer that advances as soon as it has signed leaves what recovers the key it has just given up. *)
Lemma sign_then_update_recovers : forall (E : env) (L : env_laws E) m (pp : pubparam E) pk sk t msg seed sig sk',
  pp_ok pp -> (pp_depth pp <= 32)%nat -> reachable m pp pk sk -> sign_then_update m t pp msg seed sk = (Ok sig, sk') ->
  (2 <= length (new_times sk sk'))%nat ->
  exists d s0 s1 rest rho u,
    moves (step_h m pp (OpSignThenUpdate t msg seed)) sk (Ok (Some sig)) sk' d
    /\ In (Cell "randomization" "r" (VInt rho)) d
    /\ sec_time sk = t /\ sec_time sk' = t + 1
    /\ sec_ssk sk' = s0 :: s1 :: rest
    /\ forall m'' g msg', exists s,
         fst (sign_present m'' t pp msg' (SecKey (pp_cs pp) t [recover pp t u s0 s1 rho] g)) = Ok s
         /\ verify m'' s pk pp msg' = Ok true.
Proof.
  intros E L m pp pk sk t msg seed sig sk' Hpp Hd Hr Hs Hn.
  assert (Hs' : step m pp (OpSignThenUpdate t msg seed) sk = (Ok (Some sig), sk')) by (cbn [step]; unfold sbind; rewrite Hs; reflexivity).
  pose proof (op_leaves E L m pp pk _ sk _ sk' Hpp Hd Hr Hs') as Hm.
  unfold sign_then_update in Hs. unfold sbind at 1, sget at 1 in Hs. destruct (sec_time sk =? t) eqn:Et; [|discriminate]. cbn [negb] in Hs.
  unfold sbind at 1, slift at 1 in Hs. destruct (sign_bytes m sk t pp msg) as [p|e|p]; [|discriminate..].
  unfold sbind at 1, slift at 1 in Hs. destruct (add64 m t 1) as [t1|e|q] eqn:E1; [|discriminate..].
  unfold sbind at 1 in Hs. destruct (update m pp t1 seed sk) as [[[]|e|q] sk3] eqn:E3; [|discriminate..]. unfold sret in Hs. injection Hs as <- <-.
  destruct (leftover_recovers_past E L m m pp pk sk t1 seed sk3 Hpp Hr E3 Hn) as (d & s0 & s1 & rest & rho & q & u & Hg & Hin & Hk & Hu & Hq & Hrec).
  pose proof (update_leaves E L m m pp pk sk t1 seed sk3 Hpp Hr E3) as Hg'.
  assert (Hd' : d = update_cells sk sk3 seed) by (specialize (Hg ([], [])); rewrite Hg' in Hg; injection Hg as Hx; symmetry; exact Hx).
  destruct (reachable_good L m pp pk sk Hpp Hr) as (x & _ & _ & Hgood & _).
  pose proof (update_cases L m pp x sk t1 seed Hpp Hgood) as Hc.
  assert (Ht3 : sec_time sk3 = t1).
  { destruct (in_range pp sk t1); [destruct Hc as [(k & Hk1 & _ & Hk2)|[Hk1 _]]|]; rewrite E3 in *; congruence. }
  assert (Ht1 : t1 <= t + 1).
  { unfold add64, ovf in E1. destruct (t + 1 <? two64); [injection E1 as <-; lia|]. destruct m; [discriminate|]. injection E1 as <-. apply N.mod_le. discriminate. }
  assert (Hqt : q = t) by lia. assert (Htt : t1 = t + 1) by lia. rewrite Htt in Ht3. rewrite Hqt in Hrec. clear Hc.
  exists (op_cells pp (OpSignThenUpdate t msg seed) sk sk3), s0, s1, rest, rho, u. split; [exact Hm|].
  split; [cbn [op_cells]; rewrite <- Hd'; apply in_or_app; right; exact Hin|]. split; [lia|]. split; [exact Ht3|]. split; [exact Hk|]. exact Hrec.
Qed.

Lemma hist_leaves_split {E} m (pp : pubparam E) pk l1 : forall sk l2 sk' d,
  reachable m pp pk sk -> hist_leaves m pp (l1 ++ l2) sk sk' d ->
  exists sk1 d1 d2, reachable m pp pk sk1 /\ hist_leaves m pp l1 sk sk1 d1 /\ hist_leaves m pp l2 sk1 sk' d2 /\ d = d1 ++ d2.
Proof.
  induction l1 as [|o l1 IH]; intros sk l2 sk' d Hr H; cbn [app] in H.
  - exists sk, [], d. split; [exact Hr|]. split; [constructor|]. auto.
  - assert (Hr1 : forall k1 x, step m pp o sk = (x, k1) -> reachable m pp pk k1).
    { intros k1 x Hs. pose proof (reachable_run m pp pk sk [o] Hr) as Q. cbn [run] in Q. rewrite Hs in Q. exact Q. }
    inversion H as [|o0 l0 k0 k1 k2 x d0 Hs Hl|o0 l0 k0 k1 k2 x d0 Hs Hl]; subst;
      destruct (IH k1 l2 sk' d0 (Hr1 _ _ Hs) Hl) as (sk1 & d1 & d2 & Hr2 & H1 & H2 & ->).
    + exists sk1, (op_cells pp o sk k1 ++ d1), d2. split; [exact Hr2|]. split; [eapply hl_step; eassumption|]. split; [exact H2|apply app_assoc].
    + exists sk1, (refused_cells pp o sk ++ d1), d2. split; [exact Hr2|]. split; [eapply hl_refused; eassumption|]. split; [exact H2|apply app_assoc].
Qed.
(** After any reload in a history, three cells sign any message for the time the key had at the reload, whatever happens to the key afterwards. *)
Lemma hist_reload_betrays : forall (E : env) (L : env_laws E) m (pp : pubparam E) pk sk l1 c l2 sk' d,
  pp_ok pp -> (pp_depth pp <= 32)%nat -> reachable m pp pk sk -> hist_leaves m pp (l1 ++ OpReload c :: l2) sk sk' d ->
  exists g2r hpoly y,
    In (Cell "SubSecretKey::deserialize" "g2r" (VG2 g2r)) d
    /\ In (Cell "SubSecretKey::deserialize" "hpoly" (VG1 hpoly)) d
    /\ In (Cell "SubSecretKey::deserialize" "tmp" (VG1 y)) d
    /\ forall m' msg, verify m' (forge_with pp (Head (sec_time (snd (run m pp l1 sk))) g2r hpoly) y msg) pk pp msg = Ok true.
Proof.
  intros E L m pp pk sk l1 c l2 sk' d Hpp Hd Hr H.
  destruct (hist_leaves_split m pp pk l1 sk (OpReload c :: l2) sk' d Hr H) as (k1 & d1 & d2 & Hr1 & H1 & H2 & ->).
  destruct (hist_stack_leaves E L m pp pk l1 sk k1 d1 Hpp Hd Hr H1) as [-> _].
  assert (Hf : exists s, In s (sec_ssk k1) /\ sk_t s = sec_time k1).
  { destruct (reachable_good L m pp pk k1 Hpp Hr1) as (x & _ & _ & Hg & _). pose proof (gsk_til _ _ _ Hg) as Ht. pose proof (gsk_time _ _ _ Hg) as Hb.
    destruct (sec_ssk k1) as [|s l]; cbn [map] in Ht; inversion Ht as [He|t0 v l0 Hn Hl He1 He2].
    - unfold last_time in Hb. pose proof (pow2_pos (pp_depth pp)). lia.
    - exists s. split; [left; reflexivity|congruence]. }
  destruct Hf as (s & Hs & <-). destruct (read_stack_signs E L m pp pk k1 s Hpp Hr1 Hs) as (g2r & hpoly & y & I1 & I2 & I3 & Hv).
  assert (Hi : forall a, In a (read_cells k1) -> In a (d1 ++ d2)).
  { intros a Ha. apply in_or_app. right. inversion H2 as [|o0 l0 k0 k2 k3 x d0 Hst Hl|o0 l0 k0 k2 k3 x d0 Hst Hl]; subst.
    - cbn [op_cells]. apply in_or_app. left. apply in_or_app. right. exact Ha.
    - cbn [step] in Hst. unfold sbind in Hst. rewrite (reload_wf L c k1 (reachable_sk_representable E L m pp pk k1 Hpp Hd Hr1)) in Hst. discriminate. }
  exists g2r, hpoly, y. split; [exact (Hi _ I1)|]. split; [exact (Hi _ I2)|]. split; [exact (Hi _ I3)|exact Hv].
Qed.
(** Two signatures in a row, the second by the call that gives up the key: with their randomness they make a signature of any message for that time. *)
Lemma hist_signatures_forge : forall (E : env) (L : env_laws E) m (pp : pubparam E) pk sk t msg1 msg2 seed s1 s2 sk',
  pp_ok pp -> (pp_depth pp <= 32)%nat -> reachable m pp pk sk -> msg_scalar pp msg1 <> msg_scalar pp msg2 ->
  run m pp [OpSignPresent t msg1; OpSignThenUpdate t msg2 seed] sk = ([Ok (Some s1); Ok (Some s2)], sk') ->
  exists d k1 k2 v c,
    (forall s, run_h m pp [OpSignPresent t msg1; OpSignThenUpdate t msg2 seed] (sk, s) = ([Ok (Some s1); Ok (Some s2)], (sk', (fst s, snd s ++ d))))
    /\ In (Cell "sign_fr" "r" (VInt k1)) d /\ In (Cell "sign_fr" "r" (VInt k2)) d
    /\ sec_time sk' = t + 1 /\ node_at (pp_depth pp) t v
    /\ forall m' msg,
         verify m' (combine_sigs pp t v s1 s2 k1 k2 (msg_scalar pp msg1) (msg_scalar pp msg2) c (msg_scalar pp msg)) pk pp msg = Ok true.
Proof.
  intros E L m pp pk sk t msg1 msg2 seed s1 s2 sk' Hpp Hd Hr Hne Hrun.
  destruct (hist_leaves_all E m pp [OpSignPresent t msg1; OpSignThenUpdate t msg2 seed] sk) as (d & Hl).
  { rewrite Hrun. repeat constructor. }
  destruct (hist_stack_leaves E L m pp pk _ sk _ d Hpp Hd Hr Hl) as [_ Hm]. rewrite Hrun in Hl, Hm. cbn [fst snd] in Hl, Hm.
  cbn [run step] in Hrun. unfold sbind at 1 in Hrun.
  assert (Hk : snd (sign_present m t pp msg1 sk) = sk) by (unfold sign_present, sbind, sget, slift; destruct (negb (sec_time sk =? t)); reflexivity).
  destruct (sign_present m t pp msg1 sk) as [[a|e|p] k2] eqn:E1; cbn [fst snd] in Hk; subst k2.
  2: { destruct (sbind _ _ _); discriminate. } 2: { destruct (sbind _ _ _); discriminate. }
  unfold sret at 1, sbind in Hrun. destruct (sign_then_update m t pp msg2 seed sk) as [[b|e|p] k3] eqn:E2; [|discriminate..].
  unfold sret in Hrun. injection Hrun as -> -> ->.
  destruct (SigProps.sign_then_update_outcomes E L m m pp pk sk t msg2 seed s2 sk' Hpp Hr E2) as (_ & Ht & E3 & _).
  destruct (nonces_forge E L m m pp pk sk t msg1 msg2 s1 s2 Hpp Hr E1 E3 Hne) as (v & c & _ & Hn & Hv).
  inversion Hl as [|o0 l0 k0 k4 k5 x d0 Hs0 Hl0|o0 l0 k0 k4 k5 x d0 Hs0 Hl0]; subst;
    cbn [step] in Hs0; unfold sbind, sret in Hs0; rewrite E1 in Hs0; [|discriminate]. injection Hs0 as _ <-.
  inversion Hl0 as [|o1 l1 k6 k7 k8 x1 d1 Hs1 Hl1|o1 l1 k6 k7 k8 x1 d1 Hs1 Hl1]; subst.
  2: { cbn [step] in Hs1. unfold sbind, sret in Hs1. rewrite E2 in Hs1. discriminate. }
  exists (op_cells pp (OpSignPresent t msg1) sk sk ++ op_cells pp (OpSignThenUpdate t msg2 seed) sk k7 ++ d1).
  do 2 eexists. exists v, c. split; [exact Hm|].
  split; [apply in_or_app; left; right; right; left; reflexivity|].
  split; [apply in_or_app; right; apply in_or_app; left; apply in_or_app; left; right; right; left; reflexivity|].
  split; [exact Ht|]. split; [exact Hn|exact Hv].
Qed.
