(** Proofs for C131. *)
From Verif Require Import Base Env Time SpecTime Prng SubKey SecretKey Keys Sig IO Serdes Api Ffi VecMem HvMem ReadMem BufMem FfiBuf CallMem SessionMem
  TimeFacts GroupFacts SubKeyFacts UpdateFacts KeyFacts HistoryFacts IOFacts SpecHyg HygProps SpecKey SpecUpdate SpecSer SpecVec SpecRead SpecHv SpecBuf SpecFfiBuf SpecCallMem SpecSessionMem SerProps FfiProps VecProps ReadProps HvProps BufProps FfiBufProps CallMemProps ProgProps ModeProps.
From Coq Require Import Lia ZifyBool ZifyNat ZifyN.
Local Open Scope N_scope.

Lemma csign_same : forall (E : env) C m (pp : pubparam E) skb msg t (h : cheap E),
  let h' := snd (c_sign_present_mem C m pp skb msg t h) in
  fst (c_sign_present_mem C m pp skb msg t h) = c_sign_present m pp skb msg t /\ ch_vec h' = ch_vec h /\ ch_hv h' = ch_hv h /\ ch_buf h' = ch_buf h.
Proof.
  intros E C m pp skb msg t h. cbn zeta. unfold c_sign_present_mem, c_sign_present, from_slice.
  destruct (read_same_result E (cp_hv C) (cp_ssk C) true (rpush skb []) (ch_read h)) as (rd & ->).
  destruct (fst (sk_deserialize (E := E) true (rpush skb []))) as [k|e|p]; cbn [or_panic bind fst snd]; repeat split; reflexivity.
Qed.

Lemma csign_leaves : forall (E : env) C m (pp : pubparam E) skb msg t (h : cheap E) (k : seckey E),
  from_slice (sk_deserialize true) skb = Ok k ->
  exists nr, c_sign_present_mem C m pp skb msg t h = (c_sign_present m pp skb msg t, more (CHeap nr [] [] []) h) /\ read_left C k nr.
Proof.
  intros E C m pp skb msg t h k Hk.
  destruct (read_leaves E (cp_hv C) (cp_ssk C) true (rpush skb []) (snd (sk_deserialize (E := E) true (rpush skb []))) (ch_read h) k) as (nr & Hn & Hin).
  { unfold from_slice in Hk. rewrite <- Hk. destruct (sk_deserialize true (rpush skb [])); reflexivity. }
  exists nr. split; [|exact Hin]. unfold c_sign_present_mem, c_sign_present. rewrite Hn, Hk. reflexivity.
Qed.

Lemma read_left_tidy {E} C (k : seckey E) nr : tidy C -> read_left C k nr -> nr = [].
Proof.
  intros HC Hr. apply nil_of. intros x Hx. apply Hr in Hx as [(s & l & _ & _ & Ho)|(l & _ & Ho)]; revert Ho; apply never_outgrown; apply HC.
Qed.
Lemma sign_tidy : forall (E : env) C m (pp : pubparam E) skb msg t (h : cheap E) (k : seckey E),
  tidy C -> from_slice (sk_deserialize true) skb = Ok k -> snd (c_sign_present_mem C m pp skb msg t h) = h.
Proof.
  intros E C m pp skb msg t h k HC Hk. destruct (csign_leaves E C m pp skb msg t h k Hk) as (nr & -> & Hr).
  rewrite (read_left_tidy C k nr HC Hr). destruct h; reflexivity.
Qed.
Lemma sign_ok_reads {E} C m (pp : pubparam E) skb msg t (h : cheap E) s :
  fst (c_sign_present_mem C m pp skb msg t h) = Ok s -> exists k : seckey E, from_slice (sk_deserialize true) skb = Ok k.
Proof.
  intros H. destruct (csign_same E C m pp skb msg t h) as [Hs _]. rewrite H in Hs. unfold c_sign_present in Hs.
  destruct (from_slice (sk_deserialize true) skb) as [k|e|p]; [eauto|discriminate Hs..].
Qed.

Lemma session_tidy {E} C m (pp : pubparam E) : tidy C -> forall l skb r (h h' : cheap E),
  c_session_mem C m pp l skb h = (Ok r, h') -> h' = h.
Proof.
  intros HC. induction l as [|[msg t|t seed] l IH]; intros skb r h h' He; cbn [c_session_mem] in He.
  - injection He as _ <-. reflexivity.
  - unfold sbind in He. pose proof (sign_ok_reads C m pp skb msg t h) as Hk. pose proof (sign_tidy E C m pp skb msg t h) as Ht.
    destruct (c_sign_present_mem C m pp skb msg t h) as [[s|e|p] h1]; [|discriminate..]. cbn [fst snd] in *.
    destruct (Hk s eq_refl) as (k & Hk1). rewrite (Ht k HC Hk1) in He.
    destruct (c_session_mem C m pp l skb h) as [[[b ss]|e|p] h2] eqn:Hs; [|discriminate..]. injection He as _ <-. exact (IH _ _ _ _ Hs).
  - unfold sbind in He. pose proof (tidy_leaves_nothing E C m pp skb seed t h HC) as Hn.
    destruct (c_sk_update_mem C m pp skb seed t h) as [[b1|e|p] h1]; [|discriminate..]. cbn [fst snd] in Hn.
    rewrite Hn in He by eauto. exact (IH _ _ _ _ He).
Qed.

Lemma keygen_tidy {E} (L : env_laws E) C (pp : pubparam E) seed (h : cheap E) ks h' :
  pp_ok pp -> (pp_depth pp <= 32)%nat -> tidy C -> c_keygen_mem C pp seed h = (Ok ks, h') -> h' = h.
Proof.
  intros Hpp Hd HC He. unfold c_keygen_mem in He. pose proof (keygen_outcome E L (cp_buf C) (cp_fit C) pp seed (ch_buf h) Hpp Hd) as H.
  destruct (key_gen seed pp) as [[[pk sk] pop]|e|p]; [|rewrite H in He; discriminate He..].
  destruct H as (r & new & (H1 & H2 & _ & _ & _ & H6) & H). rewrite H in He. destruct r as [skb|e|p]; [|discriminate He..].
  rewrite H6 in He; [injection He as _ <-; destruct h; reflexivity|apply HC| |].
  - intros [_ Hm]. rewrite (ti_fit C HC) in Hm. discriminate.
  - destruct (no_spare_dec (cp_buf C) (cp_fit C) (length (sk_blob true sk))) as [Hns|Hns]; [exact Hns|]. destruct (H2 Hns) as [Hp _]. discriminate.
Qed.
Lemma life_tidy : forall (E : env) (L : env_laws E) C m (pp : pubparam E) seed l pkb skb popb r (h h1 h' : cheap E),
  pp_ok pp -> (pp_depth pp <= 32)%nat -> tidy C ->
  c_keygen_mem C pp seed h = (Ok (pkb, skb, popb), h1) -> c_session_mem C m pp l skb h1 = (Ok r, h') -> h' = h.
Proof.
  intros E L C m pp seed l pkb skb popb r h h1 h' Hpp Hd HC Hk Hs.
  rewrite (keygen_tidy L C pp seed h _ h1 Hpp Hd HC Hk) in Hs. exact (session_tidy C m pp HC l skb r h h' Hs).
Qed.

Lemma more_assoc {E} (a b c : cheap E) : more (more a b) c = more a (more b c).
Proof. unfold more. cbn. rewrite <- !app_assoc. reflexivity. Qed.
Lemma session_accounts : forall (E : env) (L : env_laws E) C m (pp : pubparam E) pk l k b ss (h h' : cheap E),
  pp_ok pp -> (pp_depth pp <= 32)%nat -> reachable m pp pk k ->
  c_session_mem C m pp l (sk_blob true k) h = (Ok (b, ss), h') ->
  exists k' new, b = sk_blob true k' /\ reachable m pp pk k' /\ h' = more new h /\ accounts C m pp k l k' new.
Proof.
  intros E L C m pp pk l. induction l as [|[msg t|t seed] l IH]; intros k b ss h h' Hpp Hd Hr He; cbn [c_session_mem] in He.
  - injection He as <- _ <-. exists k, (CHeap [] [] [] []). split; [reflexivity|]. split; [exact Hr|]. split; [destruct h; reflexivity|constructor].
  - unfold sbind in He.
    destruct (csign_leaves E C m pp (sk_blob true k) msg t h k) as (nr & Hn & Hl); [apply (slice_sk L), (reachable_sk_representable E L m pp pk k Hpp Hd Hr)|].
    rewrite Hn in He. destruct (c_sign_present m pp (sk_blob true k) msg t) as [s|e|p]; [|discriminate..].
    destruct (c_session_mem C m pp l (sk_blob true k) (more (CHeap nr [] [] []) h)) as [[[b1 ss1]|e|p] h2] eqn:Hs; [|discriminate..].
    injection He as <- _ <-. destruct (IH k b1 ss1 _ _ Hpp Hd Hr Hs) as (k' & new & -> & Hr' & -> & Ha).
    exists k', (more new (CHeap nr [] [] [])). split; [reflexivity|]. split; [exact Hr'|]. split; [symmetry; apply more_assoc|]. constructor; assumption.
  - unfold sbind in He. destruct (c_sk_update_mem C m pp (sk_blob true k) seed t h) as [[b1|e|p] h1] eqn:Hu; [|discriminate..].
    destruct (call_leaves E L C m m pp pk k seed t b1 h h1 Hpp Hd Hr Hu) as (k1 & n1 & Hup & -> & -> & Hl).
    assert (Hr1 : reachable m pp pk k1) by (eapply reachable_update; eassumption).
    destruct (IH k1 b ss _ _ Hpp Hd Hr1 He) as (k' & new & -> & Hr' & -> & Ha).
    exists k', (more new n1). split; [reflexivity|]. split; [exact Hr'|]. split; [symmetry; apply more_assoc|]. econstructor; eassumption.
Qed.

(** A signature betrays the key it was made with to whoever finds the freed blocks after a later update. *)
Lemma sign_betrays : forall (E : env) (L : env_laws E) C m m' m1 (pp : pubparam E) pk sk msg t tar seed sk' (h : cheap E) i s n,
  pp_ok pp -> (pp_depth pp <= 32)%nat -> reachable m pp pk sk -> update m' pp tar seed sk = (Ok tt, sk') ->
  nth_error (sec_ssk sk) i = Some s -> sk_t s < tar -> (forall s', In s' (sec_ssk sk) -> ~ (sk_t s < sk_t s' <= tar)) ->
  (i < caps (cp_ssk C) 0 n < length (sec_ssk sk))%nat -> moved (cp_ssk C) (caps (cp_ssk C) 0 n) = true ->
  exists l hd, In (OldKeys l) (ch_read (snd (c_sign_present_mem C m1 pp (sk_blob true sk) msg t h))) /\ In hd l /\ hd_t hd = sk_t s /\ hd_t hd < tar
    /\ forall m'' msg', verify m'' (forge_from pp hd sk' msg') pk pp msg' = Ok true.
Proof.
  intros E L C m m' m1 pp pk sk msg t tar seed sk' h i s n Hpp Hd Hr Hu Hi Hlt Hno Hn Hm.
  pose proof (slice_sk L true sk (reachable_sk_representable E L m pp pk sk Hpp Hd Hr)) as Hk.
  destruct (csign_leaves E C m1 pp (sk_blob true sk) msg t h sk Hk) as (nr & -> & Hl). cbn [snd more ch_read].
  destruct (reachable_good L m pp pk sk Hpp Hr) as (x & _ & -> & Hg & Hcs).
  destruct (delegator_split L m' pp x tar seed sk sk' s Hpp Hg Hu (nth_error_In _ _ Hi) Hlt Hno) as (va & rr & w & ks & Hh & Hnn & Hk' & Hnt).
  exists (map head_of (firstn (caps (cp_ssk C) 0 n) (sec_ssk sk))), (head_of s). split; [|split; [|split; [|split]]].
  - apply in_or_app. left. apply Hl. right. exists (firstn (caps (cp_ssk C) 0 n) (sec_ssk sk)). split; [reflexivity|]. exists n. split; [lia|]. split; [exact Hm|reflexivity].
  - apply in_map. apply (nth_error_In _ i). rewrite nth_error_firstn by lia. exact Hi.
  - reflexivity.
  - exact Hlt.
  - intros m'' msg'. rewrite Hh, (forge_honest L pp x (sk_t s) tar va w rr ks sk' msg' Hpp Hnt Hk').
    apply (verify_honest L); assumption.
Qed.

(** The memory has no influence on the results. *)
Lemma keygen_mem_same {E} (L : env_laws E) C (pp : pubparam E) seed (h : cheap E) :
  pp_ok pp -> (pp_depth pp <= 32)%nat -> thrifty (cp_buf C) -> fst (c_keygen_mem C pp seed h) = c_keygen pp seed.
Proof.
  intros Hpp Hd HP. unfold c_keygen_mem.
  pose proof (keygen_outcome E L (cp_buf C) (cp_fit C) pp seed (ch_buf h) Hpp Hd) as H. pose proof (c_keygen_blobs E L pp seed Hpp Hd) as Hc.
  destruct (key_gen seed pp) as [[[pk sk] pop]|e|p] eqn:Hk; [|rewrite H; symmetry; apply Hc..].
  assert (Hr : reachable Debug pp pk sk) by (exists seed, sk, pop, []; auto).
  pose proof (std_same E L (cp_buf C) (cp_fit C) Debug Debug pp pk sk seed [] 1 (ch_buf h) Hpp Hd HP Hr) as [Hs _].
  rewrite <- Hs. destruct (c_keygen_b (cp_buf C) (cp_fit C) pp seed (ch_buf h)). reflexivity.
Qed.
Lemma update_mem_same {E} (L : env_laws E) C m m' (pp : pubparam E) pk k seed t (h : cheap E) :
  pp_ok pp -> (pp_depth pp <= 32)%nat -> thrifty (cp_buf C) -> reachable m pp pk k ->
  fst (c_sk_update_mem C m' pp (sk_blob true k) seed t h) = c_sk_update m' pp (sk_blob true k) seed t.
Proof.
  intros Hpp Hd HP Hr. destruct (call_same E C m' pp (sk_blob true k) seed t h) as [-> _].
  apply (std_same E L (cp_buf C) (cp_fit C) m m' pp pk k [] seed t (ch_buf h) Hpp Hd HP Hr).
Qed.
Lemma session_same {E} (L : env_laws E) C m (pp : pubparam E) pk : pp_ok pp -> (pp_depth pp <= 32)%nat -> thrifty (cp_buf C) -> forall l k (h : cheap E),
  reachable m pp pk k -> fst (c_session_mem C m pp l (sk_blob true k) h) = c_session m pp l (sk_blob true k).
Proof.
  intros Hpp Hd HP. induction l as [|[msg t|t seed] l IH]; intros k h Hr; cbn [c_session_mem c_session]; [reflexivity| |]; unfold sbind.
  - destruct (csign_same E C m pp (sk_blob true k) msg t h) as [Hs _]. rewrite <- Hs.
    destruct (c_sign_present_mem C m pp (sk_blob true k) msg t h) as [[s|e|p] h1]; cbn [fst bind]; [|reflexivity..].
    rewrite <- (IH k h1 Hr). destruct (c_session_mem C m pp l (sk_blob true k) h1) as [[r|e|p] h2]; reflexivity.
  - pose proof (update_mem_same L C m m pp pk k seed t h Hpp Hd HP Hr) as Hs. pose proof (c_update_blobs E L m m pp pk k t seed Hpp Hd Hr) as Hb. rewrite <- Hs in *. clear Hs.
    destruct (c_sk_update_mem C m pp (sk_blob true k) seed t h) as [[b|e|p] h1]; cbn [fst bind] in *; [|reflexivity..].
    destruct (update m pp t seed k) as [[[]|e|p] k1] eqn:Hu; [|discriminate Hb..]. injection Hb as ->.
    apply IH. eapply reachable_update; eassumption.
Qed.
Lemma life_same : forall (E : env) (L : env_laws E) C m (pp : pubparam E) seed l (h : cheap E),
  pp_ok pp -> (pp_depth pp <= 32)%nat -> thrifty (cp_buf C) ->
  fst (c_keygen_mem C pp seed h) = c_keygen pp seed
  /\ forall pkb skb popb h1, c_keygen_mem C pp seed h = (Ok (pkb, skb, popb), h1) ->
     fst (c_session_mem C m pp l skb h1) = c_session m pp l skb.
Proof.
  intros E L C m pp seed l h Hpp Hd HP. pose proof (keygen_mem_same L C pp seed h Hpp Hd HP) as Hk. split; [exact Hk|].
  intros pkb skb popb h1 He. rewrite He in Hk. cbn [fst] in Hk. pose proof (c_keygen_blobs E L pp seed Hpp Hd) as Hc. rewrite <- Hk in Hc.
  destruct (key_gen seed pp) as [[[pk sk] pop]|e|p] eqn:Hg; [|destruct Hc as [Hc _]; discriminate Hc..]. injection Hc as _ Hc _. subst skb.
  apply (session_same L C m pp pk Hpp Hd HP). exists seed, sk, pop, []. auto.
Qed.

(** For the example. *)
Lemma sign_then_update {E} (L : env_laws E) C m (pp : pubparam E) pk k msg t seed k' (h : cheap E) :
  pp_ok pp -> (pp_depth pp <= 32)%nat -> thrifty (cp_buf C) -> reachable m pp pk k -> update m pp t seed k = (Ok tt, k') ->
  exists s h', c_session_mem C m pp [CSign msg (sec_time k); CUpdate t seed] (sk_blob true k) h = (Ok (sk_blob true k', [s]), h').
Proof.
  intros Hpp Hd HP Hr Hu. pose proof (session_same L C m pp pk Hpp Hd HP [CSign msg (sec_time k); CUpdate t seed] k h Hr) as Hs.
  cbn [c_session] in Hs. rewrite (c_sign_blobs E L m m pp pk k (sec_time k) msg Hpp Hd Hr), (c_update_blobs E L m m pp pk k t seed Hpp Hd Hr), Hu in Hs.
  destruct (reachable_good L m pp pk k Hpp Hr) as (x & _ & _ & Hg & Hcs).
  pose proof (sign_present_cases L m pp x k (sec_time k) msg Hpp Hcs Hg) as Hc. rewrite N.eqb_refl in Hc.
  destruct Hc as (s & Hc & _). rewrite Hc in Hs. cbn [fst bind snd] in Hs.
  exists (sig_blob true s), (snd (c_session_mem C m pp [CSign msg (sec_time k); CUpdate t seed] (sk_blob true k) h)).
  rewrite <- Hs. destruct (c_session_mem C m pp _ (sk_blob true k) h). reflexivity.
Qed.

(** A life from key generation on, for any allocator. *)
Lemma life_accounts : forall (E : env) (L : env_laws E) C m (pp : pubparam E) seed l pkb skb popb b ss (h h1 h' : cheap E),
  pp_ok pp -> (pp_depth pp <= 32)%nat ->
  c_keygen_mem C pp seed h = (Ok (pkb, skb, popb), h1) -> c_session_mem C m pp l skb h1 = (Ok (b, ss), h') ->
  exists pk k0 pop k nb new, key_gen seed pp = Ok (pk, k0, pop) /\ skb = sk_blob true k0 /\ b = sk_blob true k
    /\ h1 = more (CHeap [] [] [] nb) h /\ h' = more new h1 /\ accounts C m pp k0 l k new
    /\ (forall x, In x nb -> x = skb \/ begins x skb \/ exists s, In s (sec_ssk k0) /\ begins x (ssk_blob true s)).
Proof.
  intros E L C m pp seed l pkb skb popb b ss h h1 h' Hpp Hd Hk Hs. unfold c_keygen_mem in Hk.
  pose proof (keygen_outcome E L (cp_buf C) (cp_fit C) pp seed (ch_buf h) Hpp Hd) as H.
  destruct (key_gen seed pp) as [[[pk k0] pop]|e|p] eqn:Hg; [|rewrite H in Hk; discriminate Hk..].
  destruct H as (r & nb & (H1 & H2 & _ & H4 & _) & H). rewrite H in Hk. destruct r as [skb0|e|p]; [|discriminate Hk..].
  cbn [bind] in Hk. assert (Eb : skb0 = sk_blob true k0).
  { destruct (no_spare_dec (cp_buf C) (cp_fit C) (length (sk_blob true k0))) as [Hns|Hns]; [specialize (H1 Hns); congruence|]. destruct (H2 Hns) as [Hp _]. discriminate. }
  subst skb0. injection Hk as Ha Hb Hc Hh. subst pkb skb popb h1.
  assert (Hr : reachable m pp pk k0) by (exists seed, k0, pop, []; auto).
  destruct (session_accounts E L C m pp pk l k0 b ss _ _ Hpp Hd Hr Hs) as (k & new & -> & _ & -> & Hac).
  exists pk, k0, pop, k, nb, new. repeat (split; [reflexivity|]). split; [exact Hac|exact H4].
Qed.

(** The blocks freed by an update are enough to sign for the time stamp of the sub key it was made from. *)
Lemma update_betrays : forall (E : env) (L : env_laws E) C m m' (pp : pubparam E) pk sk tar seed b (h h' : cheap E) i s n,
  pp_ok pp -> (pp_depth pp <= 32)%nat -> reachable m pp pk sk -> c_sk_update_mem C m' pp (sk_blob true sk) seed tar h = (Ok b, h') ->
  nth_error (sec_ssk sk) i = Some s -> sk_t s < tar -> (forall s', In s' (sec_ssk sk) -> ~ (sk_t s < sk_t s' <= tar)) ->
  (i < caps (cp_ssk C) 0 n < length (sec_ssk sk))%nat -> moved (cp_ssk C) (caps (cp_ssk C) 0 n) = true -> clears (cp_up C) = false ->
  exists l hd y, In (OldKeys l) (ch_read h') /\ In hd l /\ hd_t hd = sk_t s /\ in_blocks y (ch_hv h')
    /\ forall m'' msg, verify m'' (forge_with pp hd y msg) pk pp msg = Ok true.
Proof.
  intros E L C m m' pp pk sk tar seed b h h' i s n Hpp Hd Hr He Hi Hlt Hno Hn Hm Hcl.
  destruct (call_leaves E L C m m' pp pk sk seed tar b h h' Hpp Hd Hr He) as (sk' & new & Hu & _ & Hh' & Hl).
  pose proof (slice_sk L true sk (reachable_sk_representable E L m pp pk sk Hpp Hd Hr)) as Hk.
  pose proof (call_parts C m' pp (sk_blob true sk) seed tar h) as H. rewrite Hk in H. destruct H as (rd & v & hk & hv & _ & _ & H3 & H4).
  rewrite He in H4. assert (Ehv : ch_hv h' = drop_subs (cp_up C) (hk_ssk hk) hv) by (injection H4 as _ ->; reflexivity). clear H4.
  destruct (reachable_good L m pp pk sk Hpp Hr) as (x & _ & -> & Hg & Hcs).
  destruct (delegator_split L m' pp x tar seed sk sk' s Hpp Hg Hu (nth_error_In _ _ Hi) Hlt Hno) as (va & rr & w & ks & Hh & Hnn & Hk' & Hnt).
  rewrite Hu in H3. cbn [fst] in H3.
  assert (Hg1 : good_sk pp x (plain (fresh_key sk))) by (rewrite plain_fresh; exact Hg).
  destruct (update_hv_first L (cp_up C) m' pp x tar seed _ _ _ _ Hpp Hg1 H3) as (_ & _ & _ & s1 & rest & _ & _ & _ & Hs1 & _ & _ & _ & Hin).
  destruct (update_hv_same E (cp_up C) m' pp tar seed (fresh_key sk) (ch_hv h)) as (hk2 & hv2 & H5 & Hp & _). rewrite plain_fresh, Hu in *. cbn [fst snd] in *.
  rewrite H3 in H5. injection H5 as <- <-.
  assert (Ef : fst s1 = honest_ssk pp x tar (va ++ w) rr).
  { rewrite <- Hp in Hk'. unfold plain in Hk'. cbn [sec_ssk] in Hk'. rewrite Hs1 in Hk'. cbn [map] in Hk'. injection Hk' as -> _. reflexivity. }
  exists (map head_of (firstn (caps (cp_ssk C) 0 n) (sec_ssk sk))), (head_of s), (last_entry (fst s1)).
  split; [|split; [|split; [reflexivity|split]]].
  - rewrite Hh'. cbn [more ch_read]. apply in_or_app. left. apply (lb_read _ _ _ _ Hl). right. exists (firstn (caps (cp_ssk C) 0 n) (sec_ssk sk)).
    split; [reflexivity|]. exists n. split; [lia|]. split; [exact Hm|reflexivity].
  - apply in_map. apply (nth_error_In _ i). rewrite nth_error_firstn by lia. exact Hi.
  - rewrite Ehv. destruct (drop_subs_freed (cp_up C) (hk_ssk hk) hv) as (nw & -> & _ & _ & Hnw). rewrite (Hnw Hcl).
    exists (snd s1). split; [apply in_or_app; left; rewrite Hs1; left; reflexivity|]. apply Hin.
    unfold fresh_key. cbn [hk_ssk]. rewrite !map_map. intros Ht. apply in_map_iff in Ht as (s' & Ht & Hs'). cbn [fst] in Ht. apply (Hno s' Hs'). lia.
  - intros m'' msg. replace (forge_with pp (head_of s) (last_entry (fst s1)) msg) with (forge_from pp (head_of s) sk' msg).
    + rewrite Hh, (forge_honest L pp x (sk_t s) tar va w rr ks sk' msg Hpp Hnt Hk'). apply (verify_honest L); assumption.
    + unfold forge_from, forge_with, last_entry. rewrite Hk', Ef. reflexivity.
Qed.
