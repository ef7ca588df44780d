(** Lemmas behind Properties_Ffi.v. *)
From Verif Require Import Base Env NMod GroupFacts Time SpecTime TimeFacts TimeProps Hkdf Prng SpecPrng PrngFacts
  SubKey SecretKey Keys Sig IO Serdes Api Ffi SpecKey SubKeyFacts SpecUpdate UpdateFacts KeyFacts SpecSer IOFacts SerFacts
  HistoryFacts SpecSig SpecDerive SpecFfi KeyProps SubProps SigProps VerProps SerProps SpecColl CollProps.
From Coq Require Import ZifyBool ZifyNat ZifyN.
Local Open Scope N_scope.
Local Arguments N.add : simpl never.
Local Arguments N.mul : simpl never.
Local Arguments N.sub : simpl never.
Local Arguments pow2 : simpl never.

(** * The C functions on the bytes of an object are the functions on the object. *)
Lemma slice_sk {E} (L : env_laws E) c (sk : seckey E) : wf_sk sk -> from_slice (sk_deserialize c) (sk_blob c sk) = Ok sk.
Proof.
  intros Hw. destruct (sk_roundtrip E L c sk Hw) as (_ & _ & H).
  destruct (H (rpush (sk_blob c sk) []) [] (calm_slice _)) as (r' & Hr & _); [rewrite content_slice, app_nil_r; reflexivity|].
  unfold from_slice. rewrite Hr. reflexivity.
Qed.
Lemma slice_pk {E} (L : env_laws E) c (x : pubkey E) : wf_pk x -> from_slice (pk_deserialize c) (pk_blob c x) = Ok x.
Proof.
  intros Hw. destruct (pk_roundtrip E L c x Hw) as (_ & _ & H).
  destruct (H (rpush (pk_blob c x) []) []) as (r' & Hr & _); [rewrite content_slice, app_nil_r; reflexivity|].
  unfold from_slice. rewrite Hr. reflexivity.
Qed.
Lemma slice_pop {E} (L : env_laws E) c (x : proof E) : wf_pop x -> from_slice (pop_deserialize c) (pop_blob c x) = Ok x.
Proof.
  intros Hw. destruct (pop_roundtrip E L c x Hw) as (_ & _ & H).
  destruct (H (rpush (pop_blob c x) []) []) as (r' & Hr & _); [rewrite content_slice, app_nil_r; reflexivity|].
  unfold from_slice. rewrite Hr. reflexivity.
Qed.
Lemma slice_sig {E} (L : env_laws E) (x : signature E) : wf_sig x -> from_slice (sig_deserialize true) (sig_blob true x) = Ok x.
Proof.
  intros Hw. destruct (sig_roundtrip E L x Hw) as (_ & _ & H).
  destruct (H (rpush (sig_blob true x) []) []) as (r' & Hr & _); [rewrite content_slice, app_nil_r; reflexivity|].
  unfold from_slice. rewrite Hr. reflexivity.
Qed.
Lemma copy_ok n b : length b = n -> copy_from_slice n b = Ok b.
Proof. intros <-. unfold copy_from_slice. rewrite Nat.eqb_refl. reflexivity. Qed.

(** What a C function makes of a result: an error is a panic. *)
Lemma c_keygen_blobs : forall (E : env) (L : env_laws E) (pp : pubparam E) seed,
  pp_ok pp -> (pp_depth pp <= 32)%nat ->
  match key_gen seed pp with
  | Ok (pk, sk, pop) => c_keygen pp seed = Ok (pk_blob true pk, sk_blob true sk, pop_blob true pop)
  | _ => c_keygen pp seed = Panic P_FFI /\ ((length seed < 32)%nat \/ ~ supported (pp_cs pp))
  end.
Proof.
  intros E L pp seed Hpp Hd. destruct (key_gen seed pp) as [[[pk sk] pop]|e|p] eqn:Hk.
  - destruct (keygen_representable E L pp seed pk sk pop Hpp Hk) as [Hwk Hwp].
    assert (Hws : wf_sk sk).
    { apply (reachable_sk_representable E L Debug pp pk sk Hpp Hd). exists seed, sk, pop, []. auto. }
    unfold c_keygen. rewrite Hk. cbn [or_panic bind].
    destruct (pk_roundtrip E L true pk Hwk) as (-> & Hl1 & _).
    destruct (sk_roundtrip E L true sk Hws) as (-> & _ & _).
    destruct (pop_roundtrip E L true pop Hwp) as (-> & Hl2 & _). cbn [or_panic bind].
    rewrite (copy_ok PK_LEN) by exact Hl1. rewrite (copy_ok POP_LEN) by exact Hl2. reflexivity.
  - unfold c_keygen. rewrite Hk. split; [reflexivity|].
    destruct (Nat.lt_ge_cases (length seed) 32) as [Hs|Hs]; [left; exact Hs|right].
    intros Hcs. apply valid_cs_supported in Hcs. rewrite (key_gen_spec L) in Hk by auto. discriminate.
  - exfalso. destruct (Nat.lt_ge_cases (length seed) 32) as [Hs|Hs]; [rewrite key_gen_short in Hk by exact Hs; discriminate|].
    destruct (valid_cs (pp_cs pp)) eqn:Hcs; [rewrite (key_gen_spec L) in Hk by auto|rewrite key_gen_bad_cs in Hk by auto]; discriminate.
Qed.

Lemma c_update_blobs : forall (E : env) (L : env_laws E) m m' (pp : pubparam E) pk sk t seed,
  pp_ok pp -> (pp_depth pp <= 32)%nat -> reachable m pp pk sk ->
  c_sk_update m' pp (sk_blob true sk) seed t
  = match update m' pp t seed sk with
    | (Ok _, sk') => Ok (sk_blob true sk')
    | (Err _, _) => Panic P_FFI
    | (Panic p, _) => Panic p
    end.
Proof.
  intros E L m m' pp pk sk t seed Hpp Hd Hr.
  destruct (reachable_good L m pp pk sk Hpp Hr) as (x & _ & _ & Hg & Hcs).
  pose proof (good_wf L pp x sk Hpp Hd Hcs Hg) as Hw.
  unfold c_sk_update. rewrite (slice_sk L) by exact Hw. cbn [or_panic bind]. unfold run_mut.
  destruct (update m' pp t seed sk) as [[[]|e|p] sk'] eqn:Hu; try reflexivity. cbn [or_panic bind].
  assert (Hg' : good_sk pp x sk').
  { destruct (in_range pp sk t) eqn:Er.
    - assert (Ht : sec_time sk < t <= last_time (pp_depth pp)) by (unfold in_range in Er; lia).
      destruct (update_good_ok L m' pp x sk t seed Hpp Hg Ht) as [(sk1 & Hu1 & Hg1 & _)|Hu1]; rewrite Hu in Hu1;
        [injection Hu1 as ->; exact Hg1|discriminate Hu1].
    - pose proof (update_cases L m' pp x sk t seed Hpp Hg) as H. rewrite Er in H. rewrite Hu in H. discriminate. }
  destruct (sk_roundtrip E L true sk' (good_wf L pp x sk' Hpp Hd Hcs Hg')) as (-> & _). reflexivity.
Qed.

Lemma c_sign_blobs : forall (E : env) (L : env_laws E) m m' (pp : pubparam E) pk sk t msg,
  pp_ok pp -> (pp_depth pp <= 32)%nat -> reachable m pp pk sk ->
  c_sign_present m' pp (sk_blob true sk) msg t
  = match fst (sign_present m' t pp msg sk) with
    | Ok s => Ok (sig_blob true s)
    | Err _ => Panic P_FFI
    | Panic p => Panic p
    end.
Proof.
  intros E L m m' pp pk sk t msg Hpp Hd Hr.
  pose proof (reachable_sk_representable E L m pp pk sk Hpp Hd Hr) as Hw.
  unfold c_sign_present. rewrite (slice_sk L) by exact Hw. cbn [or_panic bind].
  destruct (reachable_good L m pp pk sk Hpp Hr) as (x & _ & _ & Hg & Hcs).
  destruct (sign_present m' t pp msg sk) as [[s|e|p] sk'] eqn:Hs; cbn [fst]; try reflexivity. cbn [or_panic bind].
  assert (Hws : wf_sig s).
  { assert (Hst : step m' pp (OpSignPresent t msg) sk = (Ok (Some s), sk')) by (cbn [step]; unfold sbind; rewrite Hs; reflexivity).
    destruct (step_signature L m' m' pp x _ sk s sk' 0 Hpp Hcs Hg Hst) as (t1 & msg1 & _ & Hv & _ & _).
    apply (verify_spec L) in Hv as (Hc & Hc' & H1 & H2 & v & Hn & _); [|exact Hpp|apply (g2_mul_insub L), Hpp].
    apply node_at_range in Hn. unfold last_time in Hn. pose proof (pow2_le _ _ Hd). change (pow2 32) with (2^32) in *.
    constructor; auto; [|lia]. rewrite Hc'. apply valid_cs_supported, Hc. }
  destruct (sig_roundtrip E L s Hws) as (-> & Hl & _). cbn [or_panic bind]. apply copy_ok, Hl.
Qed.

Lemma c_verify_blobs : forall (E : env) (L : env_laws E) m (pp : pubparam E) pk s msg,
  wf_pk pk -> wf_sig s -> c_verify m pp (pk_blob true pk) msg (sig_blob true s) = verify m s pk pp msg.
Proof.
  intros E L m pp pk s msg Hk Hs. unfold c_verify. rewrite (slice_pk L), (slice_sig L) by assumption. reflexivity.
Qed.

(** The converse: a C function that returns something was given well-formed bytes. *)
Lemma c_verify_inputs : forall (E : env) m (pp : pubparam E) pkb msg sigb b,
  c_verify m pp pkb msg sigb = Ok b ->
  exists pk s, from_slice (pk_deserialize true) pkb = Ok pk /\ from_slice (sig_deserialize true) sigb = Ok s
               /\ verify m s pk pp msg = Ok b.
Proof.
  intros E m pp pkb msg sigb b H. unfold c_verify in H.
  destruct (from_slice (pk_deserialize true) pkb) as [pk| |]; try discriminate. cbn [or_panic bind] in H.
  destruct (from_slice (sig_deserialize true) sigb) as [s| |]; try discriminate. cbn [or_panic bind] in H. eauto 6.
Qed.

Lemma from_slice_no_panic {E : env} b :
  (forall p, from_slice (@pk_deserialize E true) b <> Panic p)
  /\ (forall p, from_slice (@pop_deserialize E true) b <> Panic p)
  /\ (forall p, from_slice (@sig_deserialize E true) b <> Panic p).
Proof.
  unfold from_slice. split; [|split]; intros p H.
  - pose proof (proj1 (pk_deserialize_checked E true (rpush b []))) as Hn. rewrite H in Hn. discriminate Hn.
  - pose proof (proj1 (pop_deserialize_checked E true (rpush b []))) as Hn. rewrite H in Hn. discriminate Hn.
  - pose proof (proj1 (sig_deserialize_checked E true (rpush b []))) as Hn. rewrite H in Hn. discriminate Hn.
Qed.

Lemma c_verify_pop_bytes : forall (E : env) pkb popb,
  (forall b, @c_verify_pop E pkb popb = Ok b <->
     exists pk pop, from_slice (@pk_deserialize E true) pkb = Ok pk /\ from_slice (@pop_deserialize E true) popb = Ok pop
                    /\ pk_validate pk pop = b)
  /\ (is_ok (@c_verify_pop E pkb popb) = false -> @c_verify_pop E pkb popb = Panic P_FFI).
Proof.
  intros E pkb popb. unfold c_verify_pop.
  destruct (from_slice_no_panic (E := E) pkb) as [Hk _]. destruct (from_slice_no_panic (E := E) popb) as (_ & Hp & _).
  destruct (from_slice (@pk_deserialize E true) pkb) as [pk|e|p]; [|cbn; split; [|reflexivity]|destruct (Hk p); reflexivity].
  2:{ intros b; split; [discriminate|]. intros (x & y & H & _). discriminate H. }
  destruct (from_slice (@pop_deserialize E true) popb) as [pop|e|p]; [|cbn; split; [|reflexivity]|destruct (Hp p); reflexivity].
  2:{ intros b; split; [discriminate|]. intros (x & y & _ & H & _). discriminate H. }
  cbn [or_panic bind]. split; [|cbn; discriminate]. intros b. split.
  - intros H. injection H as H. eauto.
  - intros (x & y & H1 & H2 & H). injection H1 as <-. injection H2 as <-. rewrite H. reflexivity.
Qed.

Lemma c_verify_pop_blobs : forall (E : env) (L : env_laws E) (pk : pubkey E) pop,
  wf_pk pk -> wf_pop pop -> @c_verify_pop E (pk_blob true pk) (pop_blob true pop) = Ok (pk_validate pk pop).
Proof.
  intros E L pk pop Hk Hp. unfold c_verify_pop. rewrite (slice_pk L), (slice_pop L) by assumption. reflexivity.
Qed.

(** * End to end *)
Lemma c_updates_reachable {E} (L : env_laws E) m (pp : pubparam E) pk : pp_ok pp -> (pp_depth pp <= 32)%nat ->
  forall l sk b, reachable m pp pk sk -> c_updates m pp l (sk_blob true sk) = Ok b ->
  exists sk', reachable m pp pk sk' /\ b = sk_blob true sk' /\ sec_time sk' = last (map fst l) (sec_time sk).
Proof.
  intros Hpp Hd. induction l as [|[t seed] l IH]; intros sk b Hr H; cbn [c_updates] in H.
  - injection H as <-. exists sk. auto.
  - rewrite (c_update_blobs E L m m pp pk sk t seed Hpp Hd Hr) in H.
    destruct (update m pp t seed sk) as [[[]|e|p] sk1] eqn:Hu; cbn [bind] in H; try discriminate.
    assert (Hr1 : reachable m pp pk sk1).
    { pose proof (reachable_run m pp pk sk [OpUpdate t seed] Hr) as H1. cbn [run step] in H1. unfold sbind in H1.
      rewrite Hu in H1. exact H1. }
    destruct (IH sk1 b Hr1 H) as (sk' & Hr' & -> & Ht). exists sk'. split; [exact Hr'|]. split; [reflexivity|].
    rewrite Ht. destruct (reachable_good L m pp pk sk Hpp Hr) as (x & _ & _ & Hg & _).
    assert (Ht1 : sec_time sk1 = t).
    { pose proof (update_cases L m pp x sk t seed Hpp Hg) as Hc. destruct (in_range pp sk t) eqn:Er.
      - assert (Hin : sec_time sk < t <= last_time (pp_depth pp)) by (unfold in_range in Er; lia).
        destruct (update_good_ok L m pp x sk t seed Hpp Hg Hin) as [(sk2 & Hu2 & _ & Ht2)|Hu2]; rewrite Hu in Hu2;
          [injection Hu2 as ->; exact Ht2|discriminate Hu2].
      - rewrite Hu in Hc. discriminate. }
    rewrite Ht1. cbn [map fst]. destruct (map fst l) as [|a l']; [reflexivity|].
    clear. revert a. cbn [last]. induction l' as [|b l' IH]; intros a; [reflexivity|]. apply (IH b).
Qed.

Lemma c_interface_end_to_end : forall (E : env) (L : env_laws E) m (pp : pubparam E) seed pkb skb popb l b msg,
  pp_ok pp -> (pp_depth pp <= 32)%nat -> pp_g2 pp = g2_one ->
  c_keygen pp seed = Ok (pkb, skb, popb) -> c_updates m pp l skb = Ok b ->
  c_verify_pop (E := E) pkb popb = Ok true
  /\ length pkb = 49%nat /\ length popb = 97%nat
  /\ c_estimate_sk_size m (c_time l) (pp_depth pp) = Ok (length b)
  /\ exists sigb, c_sign_present m pp b msg (c_time l) = Ok sigb /\ length sigb = 149%nat
                  /\ c_verify m pp pkb msg sigb = Ok true.
Proof.
  intros E L m pp seed pkb skb popb l b msg Hpp Hd Hone Hk Hu.
  pose proof (c_keygen_blobs E L pp seed Hpp Hd) as Hc.
  destruct (key_gen seed pp) as [[[pk sk] pop]|e|p] eqn:Hkg; [|destruct Hc as [Hc _]; congruence..].
  rewrite Hk in Hc. injection Hc as -> -> ->.
  destruct (keygen_representable E L pp seed pk sk pop Hpp Hkg) as [Hwk Hwp].
  assert (Hr : reachable m pp pk sk) by (exists seed, sk, pop, []; auto).
  destruct (c_updates_reachable L m pp pk Hpp Hd l sk b Hr Hu) as (sk' & Hr' & -> & Ht).
  assert (Ht1 : c_time l = sec_time sk').
  { unfold c_time. rewrite Ht. destruct (keygen_fields E L pp seed pk sk pop Hkg) as [-> _]. reflexivity. }
  rewrite Ht1. split; [|split; [|split; [|split]]].
  - unfold c_verify_pop. rewrite (slice_pk L), (slice_pop L) by assumption. cbn [or_panic bind].
    rewrite (keygen_pop E L pp seed pk sk pop Hpp Hone Hkg). reflexivity.
  - apply (pk_roundtrip E L true pk Hwk).
  - apply (pop_roundtrip E L true pop Hwp).
  - unfold c_estimate_sk_size. destruct (key_size_estimate E L m m pp pk sk' Hpp Hr') as [-> _]. cbn [or_panic].
    destruct (sk_roundtrip E L true sk' (reachable_sk_representable E L m pp pk sk' Hpp Hd Hr')) as (_ & -> & _). reflexivity.
  - rewrite (c_sign_blobs E L m m pp pk sk' (sec_time sk') msg Hpp Hd Hr').
    destruct (reachable_good L m pp pk sk' Hpp Hr') as (x & _ & Hpk & Hg & Hcs).
    pose proof (sign_present_cases L m pp x sk' (sec_time sk') msg Hpp Hcs Hg) as Hs. rewrite N.eqb_refl in Hs.
    destruct Hs as (s & Hs & Hgs). rewrite Hs. cbn [fst]. exists (sig_blob true s). split; [reflexivity|].
    assert (Hst : step m pp (OpSignPresent (sec_time sk') msg) sk' = (Ok (Some s), sk')) by (cbn [step]; unfold sbind; rewrite Hs; reflexivity).
    pose proof (reachable_sig_representable E L m pp pk sk' _ s sk' Hpp Hd Hr' Hst) as Hws.
    split; [apply (sig_roundtrip E L s Hws)|]. rewrite (c_verify_blobs E L m pp pk s msg Hwk Hws), Hpk.
    apply (good_sig_verifies L m pp x (sec_time sk') msg s); auto.
Qed.

Lemma c_updates_outcomes : forall (E : env) (L : env_laws E) m (pp : pubparam E) kseed h pk l sk,
  pp_ok pp -> (pp_depth pp <= 32)%nat -> reached m pp kseed h pk sk ->
  increasing (sec_time sk) (last_time (pp_depth pp)) l ->
  (exists b, c_updates m pp l (sk_blob true sk) = Ok b)
  \/ (c_updates m pp l (sk_blob true sk) = Panic P_PRNG /\ breaks m pp [(kseed, h ++ updates l)]).
Proof.
  intros E L m pp kseed h pk l sk Hpp Hd. revert h sk. induction l as [|[t seed] l IH]; intros h sk Hr0 H; cbn [c_updates].
  - left. eauto.
  - destruct H as [Ht H]. pose proof (reached_reachable _ _ _ _ _ _ Hr0) as Hr. rewrite (c_update_blobs E L m m pp pk sk t seed Hpp Hd Hr).
    destruct (reachable_good L m pp pk sk Hpp Hr) as (x & _ & _ & Hg & _).
    destruct (update_good_ok L m pp x sk t seed Hpp Hg Ht) as [(sk1 & Hu & _ & Ht1)|Hu]; rewrite Hu; cbn [bind].
    + rewrite <- Ht1 in H. pose proof (IH _ sk1 (reached_update m pp kseed h pk sk t seed sk1 Hr0 Hu) H) as H1.
      rewrite snoc_cons in H1. exact H1.
    + right. split; [reflexivity|]. apply (breaks_here m pp kseed h (OpUpdate t seed) _ seed eq_refl).
      apply (reached_update_panic L m pp kseed h pk sk t seed P_PRNG sk Hpp Hd Hr0 Hu).
Qed.

(** * Aggregation *)
Lemma read_sigs_ok {E : env} : forall l (v : list (signature E)),
  read_sigs l = Ok v <-> Forall2 (fun b s => from_slice (sig_deserialize true) b = Ok s) l v.
Proof.
  induction l as [|b l IH]; intros v; cbn [read_sigs].
  - split; [intros H; injection H as <-; constructor|intros H; inversion H; reflexivity].
  - destruct (from_slice (sig_deserialize true) b) as [s| |] eqn:Eb; cbn [or_panic bind].
    + destruct (read_sigs l) as [r| |] eqn:Er; cbn [bind].
      * split.
        -- intros H; injection H as <-. constructor; [exact Eb|]. apply IH. reflexivity.
        -- intros H; inversion H; subst. f_equal. f_equal; [congruence|]. apply IH in H4. congruence.
      * split; [discriminate|]. intros H; inversion H; subst. apply IH in H4. discriminate H4.
      * split; [discriminate|]. intros H; inversion H; subst. apply IH in H4. discriminate H4.
    + split; [discriminate|]. intros H; inversion H; subst. congruence.
    + split; [discriminate|]. intros H; inversion H; subst. congruence.
Qed.
Lemma read_sigs_panic {E : env} : forall l, (exists v, @read_sigs E l = Ok v) \/ (exists p, @read_sigs E l = Panic p).
Proof.
  induction l as [|b l IH]; cbn [read_sigs]; [left; eauto|].
  destruct (from_slice (sig_deserialize true) b) as [s| |]; cbn [or_panic bind]; [|right; eauto..].
  destruct IH as [(v & ->)|(p & ->)]; cbn [bind]; [left; eauto|right; eauto].
Qed.
Lemma slice_sig_wf {E} (L : env_laws E) b (s : signature E) : are_bytes b ->
  from_slice (sig_deserialize true) b = Ok s -> supported (sig_cs s) /\ 1 <= sig_time s < 2^32.
Proof.
  intros Hb H. rewrite (parses_slice (fun _ => True) _ _ _ I (parses_sig _ rclass_any true)) in H.
  destruct (p_sig true b) as [[s1 rest]| |] eqn:Ep; try discriminate. cbn [bind] in H. injection H as ->.
  unfold p_sig in Ep. apply p_bind_inv in Ep as (k & r1 & H1 & Ep). apply p_take_inv in H1 as [-> _].
  apply are_bytes_app in Hb as [_ Hb].
  apply p_bind_inv in Ep as (tb & r2 & H2 & Ep). apply p_take_inv in H2 as [-> Hl]. apply are_bytes_app in Hb as [Hb _].
  pose proof (be4_from_be4 tb Hb Hl) as [_ Ht]. cbv zeta in Ep.
  destruct (N.eqb_spec (from_be4 tb) 0) as [H0|H0]; [discriminate|].
  destruct (valid_cs (nth 0 k 0)) eqn:Hcs; cbn [negb] in Ep; [|discriminate].
  apply p_bind_inv in Ep as (s1 & r3 & H3 & Ep). cbn [negb] in Ep.
  apply p_bind_inv in Ep as (s2 & r4 & H4 & Ep). cbn [negb] in Ep. injection Ep as <- _. cbn [sig_cs sig_time].
  split; [apply valid_cs_supported, Hcs|lia].
Qed.

Lemma c_aggregation_outcomes : forall (E : env) (L : env_laws E) bl,
  Forall are_bytes bl ->
  ((exists b, @c_aggregation E bl = Ok b) <->
   (exists s v, Forall2 (fun b x => from_slice (sig_deserialize true) b = Ok x) bl (s :: v)
                /\ Forall (fun e : signature E => sig_cs e = sig_cs s /\ sig_time e = sig_time s) v))
  /\ (forall e, @c_aggregation E bl <> Err e)
  /\ (forall b, @c_aggregation E bl = Ok b -> length b = 149%nat
        /\ exists (v : list (signature E)) (a : signature E),
             Forall2 (fun b x => from_slice (sig_deserialize true) b = Ok x) bl v
             /\ aggregate v = Ok a /\ b = sig_blob true a).
Proof.
  intros E L bl Hbl.
  assert (Hmain : forall v, read_sigs bl = Ok v ->
     match @aggregate E v with
     | Ok a => @c_aggregation E bl = Ok (sig_blob true a) /\ length (sig_blob true a) = 149%nat
     | Err _ => @c_aggregation E bl = @Panic bytes P_FFI
     | Panic p => @c_aggregation E bl = @Panic bytes p
     end).
  { intros v Hv. unfold c_aggregation. rewrite Hv. cbn [bind].
    destruct (aggregate v) as [a|e|p] eqn:Ha; cbn [or_panic bind]; try reflexivity.
    assert (Hw : valid_cs (sig_cs a) && (sig_time a <? 2^32) = true).
    { pose proof (aggregate_fields E L v a Ha) as Hf. apply read_sigs_ok in Hv.
      destruct v as [|s v]; [discriminate Ha|]. inversion Hv as [|b0 ? bl' ? Hb0 _]; subst. inversion Hf as [|? ? [Hc Ht] _]; subst.
      inversion Hbl; subst. destruct (slice_sig_wf L b0 s) as [Hcs Htt]; auto. rewrite <- Hc, <- Ht.
      rewrite (proj2 (valid_cs_supported _) Hcs). cbn [andb]. lia. }
    pose proof (sig_aon a true) as Hao. rewrite Hw in Hao. rewrite (aon_to_vec _ _ Hao). cbn [or_panic bind].
    assert (Hl : length (sig_blob true a) = 149%nat).
    { unfold sig_blob. cbn [length]. rewrite !app_length, be4_len, (lc1_len E L), (lc2_len E L). reflexivity. }
    split; [apply copy_ok, Hl|exact Hl]. }
  split; [|split].
  - split.
    + intros (b & Hb). destruct (read_sigs_panic (E := E) bl) as [(v & Hv)|(p & Hp)].
      * specialize (Hmain v Hv). destruct v as [|s v]; [cbn in Hmain; congruence|].
        exists s, v. split; [apply read_sigs_ok, Hv|]. apply (aggregate_outcomes E s v).
        destruct (aggregate (s :: v)) as [a| |]; [reflexivity|congruence|congruence].
      * unfold c_aggregation in Hb. rewrite Hp in Hb. discriminate Hb.
    + intros (s & v & Hf & Hs). apply read_sigs_ok in Hf. specialize (Hmain _ Hf).
      apply (aggregate_outcomes E s v) in Hs. destruct (aggregate (s :: v)) as [a| |]; try discriminate Hs.
      destruct Hmain as [-> _]. eauto.
  - intros e He. destruct (read_sigs_panic (E := E) bl) as [(v & Hv)|(p & Hp)].
    + specialize (Hmain v Hv). destruct (aggregate v); [destruct Hmain as [Hm _]; congruence|congruence|congruence].
    + unfold c_aggregation in He. rewrite Hp in He. discriminate He.
  - intros b Hb. destruct (read_sigs_panic (E := E) bl) as [(v & Hv)|(p & Hp)].
    + specialize (Hmain v Hv). destruct (aggregate v) as [a| |] eqn:Ha; [|congruence..]. destruct Hmain as [Hm Hl].
      rewrite Hb in Hm. injection Hm as ->. split; [exact Hl|]. exists v, a. split; [apply read_sigs_ok, Hv|]. auto.
    + unfold c_aggregation in Hb. rewrite Hp in Hb. discriminate Hb.
Qed.

Lemma read_pks_ok {E : env} : forall l (v : list (pubkey E)),
  Forall2 (fun b s => from_slice (pk_deserialize true) b = Ok s) l v -> read_pks l = Ok v.
Proof.
  induction l as [|b l IH]; intros v H; inversion H; subst; cbn [read_pks]; [reflexivity|].
  rewrite H2. cbn [or_panic bind]. rewrite (IH _ H4). reflexivity.
Qed.

Lemma read_pks_cases {E : env} : forall l,
  (exists v : list (pubkey E), read_pks l = Ok v /\ Forall2 (fun b s => from_slice (pk_deserialize true) b = Ok s) l v)
  \/ (@read_pks E l = Panic P_FFI /\ ~ exists v : list (pubkey E), Forall2 (fun b s => from_slice (pk_deserialize true) b = Ok s) l v).
Proof.
  induction l as [|b l IH]; cbn [read_pks].
  - left. exists []. split; [reflexivity|constructor].
  - destruct (from_slice_no_panic (E := E) b) as [Hk _].
    destruct (from_slice (@pk_deserialize E true) b) as [pk|e|p] eqn:Eb; [|right|destruct (Hk p); reflexivity].
    + cbn [or_panic bind]. destruct IH as [(v & -> & Hf)|[-> Hn]]; [left|right]; cbn [bind].
      * exists (pk :: v). split; [reflexivity|]. constructor; assumption.
      * split; [reflexivity|]. intros (v & Hv). inversion Hv; subst. apply Hn. eauto.
    + cbn [or_panic bind]. split; [reflexivity|]. intros (v & Hv). inversion Hv; subst. congruence.
Qed.

Lemma c_verify_agg_bytes : forall (E : env) m (pp : pubparam E) pkbs msg sigb,
  (forall pks s, Forall2 (fun b k => from_slice (pk_deserialize true) b = Ok k) pkbs pks ->
     from_slice (sig_deserialize true) sigb = Ok s ->
     c_verify_agg m pp pkbs msg sigb = verify_aggregated m s pks pp msg)
  /\ (~ (exists (pks : list (pubkey E)) (s : signature E), Forall2 (fun b k => from_slice (pk_deserialize true) b = Ok k) pkbs pks
                       /\ from_slice (sig_deserialize true) sigb = Ok s) ->
      c_verify_agg m pp pkbs msg sigb = Panic P_FFI).
Proof.
  intros E m pp pkbs msg sigb. unfold c_verify_agg. split.
  - intros pks s Hf Hs. rewrite (read_pks_ok _ _ Hf), Hs. reflexivity.
  - intros Hn. destruct (read_pks_cases (E := E) pkbs) as [(v & -> & Hf)|[-> _]]; [|reflexivity]. cbn [bind].
    destruct (from_slice_no_panic (E := E) sigb) as (_ & _ & Hp).
    destruct (from_slice (@sig_deserialize E true) sigb) as [s|e|p] eqn:Es; [|reflexivity|destruct (Hp p); reflexivity].
    destruct Hn. eauto.
Qed.

(** Blobs of valid signatures for one time: the aggregate verifies. *)
Lemma c_aggregate_verifies : forall (E : env) (L : env_laws E) m (pp : pubparam E) (l : list (bytes * bytes)) msg t,
  pp_ok pp -> l <> [] -> Forall are_bytes (map fst l) ->
  Forall (fun sp => c_verify m pp (snd sp) msg (fst sp) = Ok true
     /\ (forall pk : pubkey E, from_slice (pk_deserialize true) (snd sp) = Ok pk -> pk_cs pk = pp_cs pp /\ g2_insub (pk_pk pk) = true)
     /\ (forall s : signature E, from_slice (sig_deserialize true) (fst sp) = Ok s -> sig_time s = t)) l ->
  exists b, @c_aggregation E (map fst l) = Ok b /\ length b = 149%nat /\ c_verify_agg m pp (map snd l) msg b = Ok true.
Proof.
  intros E L m pp l msg t Hpp Hne Hbl H.
  assert (Hv : exists v : list (signature E * pubkey E),
     Forall2 (fun b s => from_slice (sig_deserialize true) b = Ok s) (map fst l) (map fst v)
     /\ Forall2 (fun b k => from_slice (pk_deserialize true) b = Ok k) (map snd l) (map snd v)
     /\ Forall (fun sp => verify m (fst sp) (snd sp) pp msg = Ok true /\ sig_time (fst sp) = t
                    /\ pk_cs (snd sp) = pp_cs pp /\ g2_insub (pk_pk (snd sp)) = true) v).
  { clear Hne Hbl. induction H as [|[sb kb] l (Hc & Hcs & Ht) _ IH]; [exists []; repeat constructor|].
    destruct IH as (v & H1 & H2 & H3). cbn [fst snd] in *. apply c_verify_inputs in Hc as (pk & s & Hk & Hs & Hver).
    exists ((s, pk) :: v). cbn [map fst snd]. split; [constructor; assumption|]. split; [constructor; assumption|].
    constructor; [|exact H3]. cbn [fst snd]. split; [exact Hver|]. split; [auto|]. apply Hcs, Hk. }
  destruct Hv as (v & Hfs & Hfk & Hv).
  destruct (aggregate_verifies E L m m pp v t msg Hpp) as (a & Ha & Hva); [|exact Hv|].
  { intros ->. cbn in Hfs. destruct l; [contradiction|]. inversion Hfs. }
  destruct (c_aggregation_outcomes E L (map fst l) Hbl) as (_ & _ & Hok).
  assert (Hex : exists b, @c_aggregation E (map fst l) = Ok b).
  { apply c_aggregation_outcomes; auto. pose proof (aggregate_fields E L (map fst v) a Ha) as Hf.
    destruct (map fst v) as [|s v']; [discriminate Ha|]. exists s, v'. split; [exact Hfs|].
    inversion Hf as [|? ? [Hc Ht] Hf']; subst. eapply Forall_impl; [|exact Hf']. intros e [? ?]. split; congruence. }
  destruct Hex as (b & Hb). exists b. split; [exact Hb|]. destruct (Hok b Hb) as (Hl & v' & a' & Hf' & Ha' & ->).
  split; [exact Hl|]. assert (v' = map fst v).
  { apply read_sigs_ok in Hf'. apply read_sigs_ok in Hfs. congruence. }
  subst v'. rewrite Ha in Ha'. injection Ha' as <-.
  unfold c_verify_agg. rewrite (read_pks_ok _ _ Hfk). cbn [bind].
  assert (Hw : wf_sig a).
  { assert (Hin : g2_insub (sum2 (map pk_pk (map snd v))) = true).
    { clear -L Hv. induction Hv as [|[s k] v (_ & _ & _ & Hk) _ IH]; cbn [map sum2 fold_right snd]; [apply (l2_sub0 E L)|].
      apply (l2_sub_add E L); [exact Hk|exact IH]. }
    assert (Hne' : map snd v <> []) by (intros Hz; apply map_eq_nil in Hz; subst v; discriminate Ha).
    rewrite (verify_aggregated_sum L) in Hva by exact Hne'.
    destruct (negb _) in Hva; [discriminate Hva|]. apply (verify_spec L) in Hva as (_ & _ & H1 & H2 & _); auto.
    pose proof (aggregate_fields E L _ a Ha) as Hf. destruct v as [|[s k] v]; [discriminate Ha|]. cbn [map fst] in Hf, Hfs.
    inversion Hf as [|? ? [Hc Ht] _]; subst. inversion Hfs as [|b0 ? bl' ? Hb0 _ Hbl0]; subst. rewrite <- Hbl0 in Hbl. inversion Hbl; subst.
    destruct (slice_sig_wf L b0 s) as [Hcs Htt]; auto. constructor; auto; [rewrite <- Hc|rewrite <- Ht]; auto. }
  rewrite (slice_sig L) by exact Hw. cbn [or_panic bind]. exact Hva.
Qed.

Lemma c_interface : forall (E : env) (L : env_laws E) m (pp : pubparam E) seed,
  pp_ok pp -> (pp_depth pp <= 32)%nat -> pp_g2 pp = g2_one -> supported (pp_cs pp) -> (32 <= length seed)%nat ->
  exists pkb skb popb, c_keygen pp seed = Ok (pkb, skb, popb)
  /\ c_verify_pop (E := E) pkb popb = Ok true
  /\ forall l, increasing 1 (last_time (pp_depth pp)) l ->
     (c_updates m pp l skb = Panic P_PRNG /\ breaks m pp [(seed, updates l)])
     \/ exists b, c_updates m pp l skb = Ok b
        /\ c_estimate_sk_size m (c_time l) (pp_depth pp) = Ok (length b)
        /\ forall msg, exists sigb, c_sign_present m pp b msg (c_time l) = Ok sigb /\ length sigb = 149%nat
                                    /\ c_verify m pp pkb msg sigb = Ok true.
Proof.
  intros E L m pp seed Hpp Hd Hone Hcs Hs. pose proof (c_keygen_blobs E L pp seed Hpp Hd) as Hc.
  destruct (key_gen seed pp) as [[[pk sk] pop]|e|p] eqn:Hkg.
  2,3: destruct Hc as [_ [Hc|Hc]]; [lia|contradiction].
  exists (pk_blob true pk), (sk_blob true sk), (pop_blob true pop). split; [exact Hc|].
  assert (Hr : reachable m pp pk sk) by (exists seed, sk, pop, []; auto).
  split; [apply (c_interface_end_to_end E L m pp seed _ _ _ [] (sk_blob true sk) [] Hpp Hd Hone Hc eq_refl)|].
  intros l Hl. destruct (c_updates_outcomes E L m pp seed [] pk l sk Hpp Hd (reached_keygen m pp seed pk sk pop Hkg)) as [(b & Hb)|Hb]; [|right|left; exact Hb].
  - destruct (keygen_fields E L pp seed pk sk pop Hkg) as [-> _]. exact Hl.
  - exists b. split; [exact Hb|].
    split; [apply (c_interface_end_to_end E L m pp seed _ _ _ l b [] Hpp Hd Hone Hc Hb)|].
    intros msg. apply (c_interface_end_to_end E L m pp seed _ _ _ l b msg Hpp Hd Hone Hc Hb).
Qed.
