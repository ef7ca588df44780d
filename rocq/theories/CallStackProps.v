(** Proofs for C133. *)
From Coq Require Import String.
From Verif Require Import Base Env Time Prng SpecTime SpecPrng SubKey SecretKey Keys Sig SpecKey SpecUpdate
  TimeFacts GroupFacts SubKeyFacts UpdateFacts KeyFacts Api HistoryFacts IO Serdes SpecSer IOFacts Ffi SerProps FfiProps ProgProps Hygiene SpecHyg HygFacts HygProps
  SpecHv VecMem ReadStack SpecReadStack ReadStackProps SessionMem SpecSessionMem CallStack SpecCallStack.
From Coq Require Import Lia ZifyBool ZifyNat ZifyN.
Local Open Scope N_scope.

(** * Calls in sequence *)
Lemma gives_ret {E A} (a : A) : gives (E := E) (sret a) (Ok a) [].
Proof. intros [f D]. cbn. rewrite app_nil_r. reflexivity. Qed.
Lemma gives_lift {E A} (r : res A) : gives (E := E) (slift r) r [].
Proof. intros [f D]. cbn. rewrite app_nil_r. reflexivity. Qed.
Lemma gives_bind {E A B} (e : hm E A) (k : A -> hm E B) a d r d' : gives e (Ok a) d -> gives (k a) r d' -> gives (sbind e k) r (d ++ d').
Proof. intros H1 H2 [f D]. unfold sbind. rewrite H1. cbn [fst snd]. rewrite H2. cbn [fst snd]. rewrite app_assoc. reflexivity. Qed.
Lemma gives_lift_bind {E A B} (r : res A) (k : A -> hm E B) a o d : r = Ok a -> gives (k a) o d -> gives (sbind (slift r) k) o d.
Proof. intros -> H. exact (gives_bind _ _ _ [] _ _ (gives_lift _) H). Qed.
Lemma gives_seq {E A B} (e : hm E A) (k : A -> hm E B) o d (g : A -> res B) :
  gives e o d -> (forall a, o = Ok a -> exists d', gives (k a) (g a) d') -> exists d', gives (sbind e k) (bind o g) d'.
Proof.
  intros H1 H2. destruct o as [a|x|p].
  - destruct (H2 a eq_refl) as (d' & H). exists (d ++ d'). exact (gives_bind _ _ _ _ _ _ H1 H).
  - exists d. intros s. unfold sbind. rewrite H1. reflexivity.
  - exists d. intros s. unfold sbind. rewrite H1. reflexivity.
Qed.
Lemma gives_or_panic {E A} (h : hm E A) r d : gives h r d -> gives (or_panic_h h) (or_panic r) d.
Proof. intros H s. unfold or_panic_h. rewrite H. reflexivity. Qed.
Lemma gives_read {E A} (h : rm E A) b o r' d : reads h (rpush b []) o r' d -> gives (read_h h b) o d.
Proof. intros H [f D]. unfold read_h. rewrite H. reflexivity. Qed.
Lemma read_gives {E : env} b : exists d, gives (read_h (sk_deserialize_h (E := E) true) b) (from_slice (sk_deserialize true) b) d.
Proof. destruct (read_stack_same E true (rpush b [])) as (d & H & _). exists d. exact (gives_read _ _ _ _ _ H). Qed.
Lemma read_gives_ok {E : env} b (k : seckey E) : from_slice (sk_deserialize true) b = Ok k ->
  gives (read_h (sk_deserialize_h true) b) (Ok k) (read_cells k).
Proof.
  intros H. unfold from_slice in H. destruct (sk_deserialize true (rpush b [])) as [o r'] eqn:He. cbn [fst] in H. subst o.
  exact (gives_read _ _ _ _ _ (read_stack_leaves E true _ _ _ He)).
Qed.
Lemma to_vec_run (f : st writer unit) : to_vec f = (let! w := run_mut f (vec_writer []) in Ok (w_out w)).
Proof. unfold to_vec, run_mut. destruct (f (vec_writer [])) as [[a|e|p] w]; reflexivity. Qed.
Lemma or_panic_bind {A B} (r : res A) (g : A -> B) : or_panic (let! w := r in Ok (g w)) = (let! w := or_panic r in Ok (g w)).
Proof. destruct r; reflexivity. Qed.
Lemma to_vec_gives {E : env} (k : seckey E) : exists d, gives (sk_to_vec_h k) (or_panic (to_vec (sk_serialize k true))) d.
Proof.
  rewrite to_vec_run, or_panic_bind. destruct (sk_serialize_h_spec k true (vec_writer [])) as (d & H & _).
  eapply gives_seq; [exact (gives_or_panic _ _ _ H)|]. intros w _. exists []. apply gives_ret.
Qed.
Lemma to_vec_gives_ok {E : env} (L : env_laws E) (k : seckey E) : wf_sk k -> gives (sk_to_vec_h k) (Ok (sk_blob true k)) (map hv_cell (sec_ssk k)).
Proof.
  intros Hw. pose proof (serialize_leaves E k true (vec_writer []) Hw) as H. destruct (sk_roundtrip E L true k Hw) as (Hv & _).
  rewrite to_vec_run in Hv. destruct (run_mut (sk_serialize k true) (vec_writer [])) as [w|e|p]; cbn [bind] in Hv; [|discriminate..].
  injection Hv as Hv. rewrite app_nil_r in H. unfold sk_to_vec_h. rewrite <- Hv.
  eapply gives_eq; [eapply gives_bind; [exact (gives_or_panic _ _ _ H)|apply gives_ret]|reflexivity|apply app_nil_r].
Qed.

(** * The results *)
Lemma stack_keygen_same {E} (L : env_laws E) (pp : pubparam E) seed : exists d, gives (c_keygen_h pp seed) (c_keygen pp seed) d.
Proof.
  destruct (key_gen_h_any L pp seed) as (d & H). eapply gives_seq; [exact (gives_or_panic _ _ _ H)|]. intros [[pk sk] pop] _.
  eapply gives_seq; [apply gives_lift|]. intros pkb _. destruct (to_vec_gives sk) as (d2 & H2).
  eapply gives_seq; [exact H2|]. intros skb _. eapply gives_seq; [apply gives_lift|]. intros popb _.
  eapply gives_seq; [apply gives_lift|]. intros pka _. eapply gives_seq; [apply gives_lift|]. intros popa _. exists []. apply gives_ret.
Qed.
Lemma stack_sign_same {E} (L : env_laws E) m (pp : pubparam E) skb msg t :
  exists d, gives (c_sign_present_h m pp skb msg t) (c_sign_present m pp skb msg t) d.
Proof.
  destruct (read_gives (E := E) skb) as (d & H). eapply gives_seq; [exact (gives_or_panic _ _ _ H)|]. intros k _.
  destruct (sign_present_h_spec L m t pp msg k) as (d2 & H2 & _). eapply gives_seq; [exact (gives_or_panic _ _ _ H2)|]. intros s _.
  eapply gives_seq; [apply gives_lift|]. intros b _. exists []. apply gives_lift.
Qed.
Lemma stack_update_same {E} (L : env_laws E) m (pp : pubparam E) skb seed t :
  exists d, gives (c_sk_update_h m pp skb seed t) (c_sk_update m pp skb seed t) d.
Proof.
  destruct (read_gives (E := E) skb) as (d & H). eapply gives_seq; [exact (gives_or_panic _ _ _ H)|]. intros k _.
  destruct (update_h_spec L m pp t seed k) as (d2 & H2 & _). eapply gives_seq; [exact (gives_or_panic _ _ _ H2)|]. intros k' _. apply to_vec_gives.
Qed.
Lemma stack_session_same : forall (E : env) (L : env_laws E) m (pp : pubparam E) seed l skb,
  (exists d, gives (c_keygen_h pp seed) (c_keygen pp seed) d) /\ (exists d, gives (c_session_h m pp l skb) (c_session m pp l skb) d).
Proof.
  intros E L m pp seed l skb. split; [exact (stack_keygen_same L pp seed)|]. revert skb.
  induction l as [|[msg t|t sd] l IH]; intros skb; cbn [c_session_h c_session].
  - exists []. apply gives_ret.
  - destruct (stack_sign_same L m pp skb msg t) as (d & H). eapply gives_seq; [exact H|]. intros s _.
    destruct (IH skb) as (d2 & H2). eapply gives_seq; [exact H2|]. intros r _. exists []. apply gives_ret.
  - destruct (stack_update_same L m pp skb sd t) as (d & H). eapply gives_seq; [exact H|]. intros b _. apply IH.
Qed.

(** * The cells *)
Lemma stack_sign_leaves : forall (E : env) (L : env_laws E) m m' (pp : pubparam E) pk sk msg t b,
  pp_ok pp -> (pp_depth pp <= 32)%nat -> reachable m pp pk sk -> c_sign_present m' pp (sk_blob true sk) msg t = Ok b ->
  gives (c_sign_present_h m' pp (sk_blob true sk) msg t) (Ok b) (read_cells sk ++ sign_cells pp sk t msg).
Proof.
  intros E L m m' pp pk sk msg t b Hpp Hd Hr Hc. pose proof (reachable_sk_representable E L m pp pk sk Hpp Hd Hr) as Hw.
  pose proof (slice_sk L true sk Hw) as Hs. unfold c_sign_present in Hc. rewrite Hs in Hc. cbn [or_panic bind] in Hc.
  destruct (sign_present m' t pp msg sk) as [[s|e|p] sk1] eqn:Hp; cbn [fst or_panic bind] in Hc; [|discriminate..].
  destruct (sign_present_h_spec L m' t pp msg sk) as (d & H & Hd'). rewrite Hp in H, Hd'. cbn [fst] in H, Hd'. subst d.
  eapply gives_bind; [exact (gives_or_panic _ _ _ (read_gives_ok _ _ Hs))|].
  eapply gives_eq; [eapply gives_bind; [exact (gives_or_panic _ _ _ H)|]|reflexivity|apply app_nil_r].
  destruct (to_vec (sig_serialize s true)) as [x|e|p]; cbn [or_panic bind] in Hc; [|discriminate..].
  rewrite <- Hc. exact (gives_bind _ _ _ _ _ _ (gives_lift (Ok x)) (gives_lift _)).
Qed.
Lemma stack_update_leaves : forall (E : env) (L : env_laws E) m (pp : pubparam E) pk sk seed t b,
  pp_ok pp -> (pp_depth pp <= 32)%nat -> reachable m pp pk sk -> c_sk_update m pp (sk_blob true sk) seed t = Ok b ->
  exists sk', update m pp t seed sk = (Ok tt, sk') /\ b = sk_blob true sk'
    /\ gives (c_sk_update_h m pp (sk_blob true sk) seed t) (Ok b) (read_cells sk ++ update_cells sk sk' seed ++ map hv_cell (sec_ssk sk')).
Proof.
  intros E L m pp pk sk seed t b Hpp Hd Hr Hc. pose proof (reachable_sk_representable E L m pp pk sk Hpp Hd Hr) as Hw.
  pose proof (slice_sk L true sk Hw) as Hs. rewrite (c_update_blobs E L m m pp pk sk t seed Hpp Hd Hr) in Hc.
  destruct (update m pp t seed sk) as [[[]|e|p] sk'] eqn:Hu; [|discriminate..]. injection Hc as <-. exists sk'. split; [reflexivity|]. split; [reflexivity|].
  eapply gives_bind; [exact (gives_or_panic _ _ _ (read_gives_ok _ _ Hs))|].
  eapply gives_bind; [exact (gives_or_panic _ _ _ (update_leaves E L m m pp pk sk t seed sk' Hpp Hr Hu))|].
  apply (to_vec_gives_ok L). exact (reachable_sk_representable E L m pp pk sk' Hpp Hd (ProgProps.reachable_update m pp pk sk t seed sk' Hr Hu)).
Qed.
Lemma stack_session_leaves : forall (E : env) (L : env_laws E) m (pp : pubparam E) pk l k b ss,
  pp_ok pp -> (pp_depth pp <= 32)%nat -> reachable m pp pk k -> c_session m pp l (sk_blob true k) = Ok (b, ss) ->
  exists k' d, b = sk_blob true k' /\ reachable m pp pk k' /\ stacks m pp k l k' d
    /\ gives (c_session_h m pp l (sk_blob true k)) (Ok (b, ss)) d.
Proof.
  intros E L m pp pk l. induction l as [|[msg t|t seed] l IH]; intros k b ss Hpp Hd Hr He; cbn [c_session c_session_h] in *.
  - injection He as <- <-. exists k, []. split; [reflexivity|]. split; [exact Hr|]. split; [constructor|apply gives_ret].
  - destruct (c_sign_present m pp (sk_blob true k) msg t) as [s|e|p] eqn:Hs; cbn [bind] in He; [|discriminate..].
    destruct (c_session m pp l (sk_blob true k)) as [[b1 ss1]|e|p] eqn:Hl; cbn [bind fst snd] in He; [|discriminate..]. injection He as <- <-.
    destruct (IH k b1 ss1 Hpp Hd Hr Hl) as (k' & d & -> & Hr' & Hst & H). exists k', ((read_cells k ++ sign_cells pp k t msg) ++ d).
    split; [reflexivity|]. split; [exact Hr'|]. split; [constructor; exact Hst|].
    eapply gives_bind; [exact (stack_sign_leaves E L m m pp pk k msg t s Hpp Hd Hr Hs)|].
    eapply gives_eq; [eapply gives_bind; [exact H|apply gives_ret]|reflexivity|apply app_nil_r].
  - destruct (c_sk_update m pp (sk_blob true k) seed t) as [b1|e|p] eqn:Hu; cbn [bind] in He; [|discriminate..].
    destruct (stack_update_leaves E L m pp pk k seed t b1 Hpp Hd Hr Hu) as (k1 & Hup & -> & H1).
    destruct (IH k1 b ss Hpp Hd (ProgProps.reachable_update m pp pk k t seed k1 Hr Hup) He) as (k' & d & -> & Hr' & Hst & H).
    exists k', ((read_cells k ++ update_cells k k1 seed ++ map hv_cell (sec_ssk k1)) ++ d).
    split; [reflexivity|]. split; [exact Hr'|]. split; [econstructor; eassumption|]. exact (gives_bind _ _ _ _ _ _ H1 H).
Qed.
Lemma stack_keygen_leaves : forall (E : env) (L : env_laws E) m (pp : pubparam E) seed pkb skb popb,
  pp_ok pp -> (pp_depth pp <= 32)%nat -> c_keygen pp seed = Ok (pkb, skb, popb) ->
  exists pk sk pop g x r, key_gen seed pp = Ok (pk, sk, pop) /\ skb = sk_blob true sk
    /\ pk = PubKey (pp_cs pp) (g2_mul x (pp_g2 pp)) /\ (forall t v msg s, node_at (pp_depth pp) t v -> verify m (sign_with pp (g1_mul x (pp_h pp)) t v (msg_scalar pp msg) s) pk pp msg = Ok true)
    /\ gives (c_keygen_h pp seed) (Ok (pkb, skb, popb)) (keygen_cells pp g x r ++ map hv_cell (sec_ssk sk)).
Proof.
  intros E L m pp seed pkb skb popb Hpp Hd Hc. pose proof (c_keygen_blobs E L pp seed Hpp Hd) as H.
  destruct (key_gen seed pp) as [[[pk sk] pop]|e|p] eqn:Hk; [|destruct H as [H _]; rewrite H in Hc; discriminate..].
  assert (Hr : reachable Debug pp pk sk) by (exists seed, sk, pop, []; auto).
  destruct (keygen_leaves E L m pp seed pk sk pop Hpp Hk) as (g & x & r & Hg & Hpk & _ & Hx & _).
  exists pk, sk, pop, g, x, r. split; [reflexivity|]. split; [congruence|]. split; [exact Hpk|]. split; [exact Hx|].
  pose proof (to_vec_gives_ok L sk (reachable_sk_representable E L Debug pp pk sk Hpp Hd Hr)) as Hv.
  unfold c_keygen in Hc. rewrite Hk in Hc. cbn [or_panic bind] in Hc.
  eapply gives_bind; [exact (gives_or_panic _ _ _ Hg)|].
  destruct (or_panic (to_vec (pk_serialize pk true))) as [pb|e|p] eqn:E1; cbn [bind] in Hc; [|discriminate..].
  destruct (sk_roundtrip E L true sk (reachable_sk_representable E L Debug pp pk sk Hpp Hd Hr)) as (Hb & _). rewrite Hb in Hc. cbn [or_panic bind] in Hc.
  destruct (or_panic (to_vec (pop_serialize pop true))) as [ob|e|p] eqn:E2; cbn [bind] in Hc; [|discriminate..].
  destruct (copy_from_slice PK_LEN pb) as [a1|e|p] eqn:E3; cbn [bind] in Hc; [|discriminate..].
  destruct (copy_from_slice POP_LEN ob) as [a2|e|p] eqn:E4; cbn [bind] in Hc; [|discriminate..]. injection Hc as <- <- <-.
  apply (gives_lift_bind _ _ pb); [first [exact E1|reflexivity]|].
  eapply gives_eq; [eapply gives_bind; [exact Hv|]|reflexivity|apply app_nil_r].
  apply (gives_lift_bind _ _ ob); [first [exact E2|reflexivity]|]. apply (gives_lift_bind _ _ a1); [first [exact E3|reflexivity]|]. apply (gives_lift_bind _ _ a2); [first [exact E4|reflexivity]|]. apply gives_ret.
Qed.

(** Also a call that fails has read the key. *)
Lemma stack_any_call : forall (E : env) (L : env_laws E) m (pp : pubparam E) skb (k : seckey E) msg seed t,
  from_slice (sk_deserialize true) skb = Ok k ->
  (exists d, gives (c_sign_present_h m pp skb msg t) (c_sign_present m pp skb msg t) (read_cells k ++ d))
  /\ (exists d, gives (c_sk_update_h m pp skb seed t) (c_sk_update m pp skb seed t) (read_cells k ++ d)).
Proof.
  intros E L m pp skb k msg seed t H. pose proof (gives_or_panic _ _ _ (read_gives_ok skb k H)) as Hr. unfold c_sign_present, c_sk_update. rewrite H. cbn [or_panic bind].
  split.
  - assert (Hx : exists d, gives (do! sig <- or_panic_h (sign_present_h m t pp msg k); do! sig_buf <- slift (or_panic (to_vec (sig_serialize sig true))); slift (copy_from_slice SIG_LEN sig_buf))
        (let! sig := or_panic (fst (sign_present m t pp msg k)) in let! sig_buf := or_panic (to_vec (sig_serialize sig true)) in copy_from_slice SIG_LEN sig_buf) d).
    { destruct (sign_present_h_spec L m t pp msg k) as (d2 & H2 & _). eapply gives_seq; [exact (gives_or_panic _ _ _ H2)|]. intros s _.
      eapply gives_seq; [apply gives_lift|]. intros b _. exists []. apply gives_lift. }
    destruct Hx as (d & Hx). exists d. exact (gives_bind _ _ _ _ _ _ Hr Hx).
  - assert (Hx : exists d, gives (do! k' <- or_panic_h (update_h m pp t seed k); sk_to_vec_h k') (let! k' := or_panic (run_mut (update m pp t seed) k) in or_panic (to_vec (sk_serialize k' true))) d).
    { destruct (update_h_spec L m pp t seed k) as (d2 & H2 & _). eapply gives_seq; [exact (gives_or_panic _ _ _ H2)|]. intros k' _. apply to_vec_gives. }
    destruct Hx as (d & Hx). exists d. exact (gives_bind _ _ _ _ _ _ Hr Hx).
Qed.

(** * What can be done with them *)
Lemma stacks_split {E} m (pp : pubparam E) pk l1 : forall k l2 k' d,
  reachable m pp pk k -> stacks m pp k (l1 ++ l2) k' d ->
  exists k1 d1 d2, reachable m pp pk k1 /\ stacks m pp k l1 k1 d1 /\ stacks m pp k1 l2 k' d2 /\ d = d1 ++ d2.
Proof.
  induction l1 as [|a l1 IH]; intros k l2 k' d Hr H; cbn [app] in H.
  - exists k, [], d. split; [exact Hr|]. split; [constructor|]. auto.
  - inversion H as [|k0 msg t l0 k0' d0 Hst|k0 t seed l0 ka k0' d0 Hu Hst]; subst.
    + destruct (IH k l2 k' d0 Hr Hst) as (k1 & d1 & d2 & Hr1 & H1 & H2 & ->).
      exists k1, ((read_cells k ++ sign_cells pp k t msg) ++ d1), d2.
      split; [exact Hr1|]. split; [constructor; exact H1|]. split; [exact H2|apply app_assoc].
    + destruct (IH ka l2 k' d0 (ProgProps.reachable_update m pp pk k t seed ka Hr Hu) Hst) as (k1 & d1 & d2 & Hr1 & H1 & H2 & ->).
      exists k1, ((read_cells k ++ update_cells k ka seed ++ map hv_cell (sec_ssk ka)) ++ d1), d2.
      split; [exact Hr1|]. split; [econstructor; eassumption|]. split; [exact H2|apply app_assoc].
Qed.
Lemma stacks_read {E} m (pp : pubparam E) k a l k' d : stacks m pp k (a :: l) k' d -> forall c, In c (read_cells k) -> In c d.
Proof. intros H c Hc. inversion H; subst; apply in_or_app; left; apply in_or_app; left; exact Hc. Qed.
Lemma stack_session_betrays : forall (E : env) (L : env_laws E) m (pp : pubparam E) pk k l1 a l2 k' d,
  pp_ok pp -> reachable m pp pk k -> stacks m pp k (l1 ++ a :: l2) k' d ->
  exists k1 d1, stacks m pp k l1 k1 d1 /\ exists g2r hpoly y,
    In (Cell "SubSecretKey::deserialize" "g2r" (VG2 g2r)) d
    /\ In (Cell "SubSecretKey::deserialize" "hpoly" (VG1 hpoly)) d
    /\ In (Cell "SubSecretKey::deserialize" "tmp" (VG1 y)) d
    /\ forall m' msg, verify m' (forge_with pp (Head (sec_time k1) g2r hpoly) y msg) pk pp msg = Ok true.
Proof.
  intros E L m pp pk k l1 a l2 k' d Hpp Hr H.
  destruct (stacks_split m pp pk l1 k (a :: l2) k' d Hr H) as (k1 & d1 & d2 & Hr1 & H1 & H2 & ->). exists k1, d1. split; [exact H1|].
  assert (Hf : exists s, In s (sec_ssk k1) /\ sk_t s = sec_time k1).
  { destruct (reachable_good L m pp pk k1 Hpp Hr1) as (x & _ & _ & Hg & _). pose proof (gsk_til _ _ _ Hg) as Ht. pose proof (gsk_time _ _ _ Hg) as Hb.
    destruct (sec_ssk k1) as [|s l]; cbn [map] in Ht; inversion Ht as [He|t0 v l0 Hn Hl He1 He2].
    - unfold last_time in Hb. pose proof (pow2_pos (pp_depth pp)). lia.
    - exists s. split; [left; reflexivity|congruence]. }
  destruct Hf as (s & Hs & <-). destruct (read_stack_signs E L m pp pk k1 s Hpp Hr1 Hs) as (g2r & hpoly & y & I1 & I2 & I3 & Hv).
  exists g2r, hpoly, y. pose proof (stacks_read m pp k1 a l2 k' d2 H2) as Hi.
  split; [apply in_or_app; right; apply Hi; exact I1|]. split; [apply in_or_app; right; apply Hi; exact I2|]. split; [apply in_or_app; right; apply Hi; exact I3|exact Hv].
Qed.
Lemma stack_life : forall (E : env) (L : env_laws E) m (pp : pubparam E) seed l pkb skb popb b ss,
  pp_ok pp -> (pp_depth pp <= 32)%nat -> c_keygen pp seed = Ok (pkb, skb, popb) -> c_session m pp l skb = Ok (b, ss) ->
  exists pk k0 pop g x r k d, key_gen seed pp = Ok (pk, k0, pop) /\ b = sk_blob true k /\ stacks m pp k0 l k d
    /\ gives (do! keys <- c_keygen_h pp seed; c_session_h m pp l (snd (fst keys))) (Ok (b, ss))
         ((keygen_cells pp g x r ++ map hv_cell (sec_ssk k0)) ++ d)
    /\ forall t v msg s, node_at (pp_depth pp) t v -> verify m (sign_with pp (g1_mul x (pp_h pp)) t v (msg_scalar pp msg) s) pk pp msg = Ok true.
Proof.
  intros E L m pp seed l pkb skb popb b ss Hpp Hd Hk Hs.
  destruct (stack_keygen_leaves E L m pp seed pkb skb popb Hpp Hd Hk) as (pk & k0 & pop & g & x & r & Hg & -> & Hpk & Hx & H1).
  assert (Hr : reachable m pp pk k0) by (exists seed, k0, pop, []; auto).
  destruct (stack_session_leaves E L m pp pk l k0 b ss Hpp Hd Hr Hs) as (k & d & Hb & _ & Hst & H2).
  exists pk, k0, pop, g, x, r, k, d. split; [exact Hg|]. split; [exact Hb|]. split; [exact Hst|]. split; [exact (gives_bind _ _ _ _ _ _ H1 H2)|exact Hx].
Qed.

(** For the example: signing and then an update. *)
Lemma sign_update_session {E} (L : env_laws E) m (pp : pubparam E) pk k msg t seed k' :
  pp_ok pp -> (pp_depth pp <= 32)%nat -> reachable m pp pk k -> update m pp t seed k = (Ok tt, k') ->
  exists s, c_session m pp [CSign msg (sec_time k); CUpdate t seed] (sk_blob true k) = Ok (sk_blob true k', [s]).
Proof.
  intros Hpp Hd Hr Hu. cbn [c_session]. rewrite (c_sign_blobs E L m m pp pk k (sec_time k) msg Hpp Hd Hr), (c_update_blobs E L m m pp pk k t seed Hpp Hd Hr), Hu.
  destruct (reachable_good L m pp pk k Hpp Hr) as (x & _ & _ & Hg & Hcs).
  pose proof (sign_present_cases L m pp x k (sec_time k) msg Hpp Hcs Hg) as Hc. rewrite N.eqb_refl in Hc.
  destruct Hc as (s & -> & _). cbn [fst bind snd]. eauto.
Qed.
