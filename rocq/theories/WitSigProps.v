(** Witnesses, computed in the toy environment, behind the [_refuted] theorems on signing,
    verification and validation. *)
From Coq Require Import String.
From Verif Require Import Base Env Time SpecTime TimeFacts Hkdf Prng SpecPrng PrngFacts SubKey SecretKey Keys Sig IO Serdes Api Ffi
  SpecKey SpecUpdate SpecSer Sha512 Toy ToyRun SpecSig VerProps ValProps HistoryFacts ShapeFacts.
Local Open Scope N_scope.

(** * Keys and signatures *)
Definition sign_of (t : N) (msg : bytes) (sk : seckey toy) : signature toy :=
  get (@Signature toy 0 0 (mk r2 0) (mk r1 0)) (fst (sign_present Debug t tpp4 msg sk)).
Definition tsig7 : signature toy := Eval vm_compute in sign_of 7 (str "hello") tsk7.
Lemma tsig7_ok : sign_present Debug 7 tpp4 (str "hello") tsk7 = (Ok tsig7, tsk7).
Proof. vm_cast_no_check (eq_refl (Ok tsig7, tsk7)). Qed.

(** A second signer. *)
Definition tkg4b : pubkey toy * seckey toy * proof toy := Eval vm_compute in get tdflt (key_gen (str "another seed of more than 32 bytes") tpp4).
Definition tpk4b : pubkey toy := Eval cbv beta iota delta [fst3 fst snd tkg4b] in fst3 tkg4b.
Definition tsk4b : seckey toy := Eval cbv beta iota delta [snd3 fst snd tkg4b] in snd3 tkg4b.
Lemma tkeygenb : key_gen (str "another seed of more than 32 bytes") tpp4 = Ok (tpk4b, tsk4b, snd tkg4b).
Proof. vm_cast_no_check (eq_refl (Ok (tpk4b, tsk4b, snd tkg4b))). Qed.
Definition tsg7b : res (signature toy) * seckey toy := Eval vm_compute in sign Debug 7 tpp4 (str "hello") (str "s") tsk4b.
Definition tsig7b : signature toy := Eval cbv beta iota delta [fst snd tsg7b get] in get tsig7 (fst tsg7b).
Definition tsk7b : seckey toy := Eval cbv beta iota delta [fst snd tsg7b] in snd tsg7b.
Lemma tsig7b_ok : sign Debug 7 tpp4 (str "hello") (str "s") tsk4b = (Ok tsig7b, tsk7b).
Proof. vm_cast_no_check (eq_refl (Ok tsig7b, tsk7b)). Qed.

Definition tpk4_cs (cs : N) : pubkey toy := @PubKey toy cs (pk_pk tpk4).

(** * C28 *)
Lemma verify_accepts_other_cs : exists (E : env) (pp : pubparam E) pk s msg,
  env_laws E /\ pp_ok pp /\ pk_cs pk <> pp_cs pp /\ verify Debug s pk pp msg = Ok true
  /\ verify_aggregated Debug s [pk] pp msg = Ok false.
Proof.
  exists toy, tpp4, (tpk4_cs 1), tsig7, (str "hello"). split; [exact toy_laws|]. split; [exact tpp4_ok|].
  split; [intros H; discriminate H|]. split; [vm_cast_no_check (eq_refl (Ok true))|reflexivity].
Qed.

(** * C18: a deserialized key on which sign and update; sign_present differ. *)
Definition tsk18 : seckey toy := @SecKey toy 0 3 [tssk 3 2; tssk 9 3; tssk 4 1; tssk 3 2] (repeat 7 64).
Definition tsk18_blob : bytes := Eval vm_compute in sk_blob true tsk18.
Definition tsk18' : seckey toy := Eval vm_compute in snd (update Debug tpp4 4 [] tsk18).
Lemma malformed_sign_differs : exists (E : env) (pp : pubparam E) blob sk t msg seed sk',
  env_laws E /\ pp_ok pp /\ from_slice (sk_deserialize true) blob = Ok sk /\ sec_time sk < t
  /\ sign Debug t pp msg seed sk = (Panic P_TIME, sk')
  /\ (do! _ <- update Debug pp t seed; sign_present Debug t pp msg) sk = (Err E_TIME_STAMP, sk').
Proof.
  exists toy, tpp4, tsk18_blob, tsk18, 4, [], [], tsk18'. split; [exact toy_laws|]. split; [exact tpp4_ok|].
  split; [vm_cast_no_check (eq_refl (Ok tsk18))|]. split; [reflexivity|].
  split; [vm_cast_no_check (eq_refl (@Panic (signature toy) P_TIME, tsk18'))|].
  vm_cast_no_check (eq_refl (@Err (signature toy) E_TIME_STAMP, tsk18')).
Qed.

(** * C54: the ciphersuite agrees but is not a supported one. *)
Definition tpp_cs5 : pubparam toy := @PubParam toy 4 5 (pp_g2 tpp4) (pp_h tpp4) (pp_hlist tpp4).
Definition tsk_cs5 : seckey toy := @SecKey toy 5 (sec_time tsk7) (sec_ssk tsk7) (sec_prng tsk7).
Definition tsk_cs5' : seckey toy := Eval vm_compute in snd (update Debug tpp_cs5 8 [] tsk_cs5).
Lemma sign_fails_and_advances : exists (E : env) (pp : pubparam E) sk t msg seed sk',
  env_laws E /\ pp_ok pp /\ shape_sk pp sk
  /\ sign Debug t pp msg seed sk = (Err E_CIPHERSUITE, sk') /\ sec_time sk' = t /\ sec_time sk < t.
Proof.
  exists toy, tpp_cs5, tsk_cs5, 8, [], [], tsk_cs5'. split; [exact toy_laws|].
  split. { destruct tpp4_ok as [H1 H2 H3 H4 H5]. constructor; [exact H1|exact H2|exact H3|exact H4|exact H5]. }
  split.
  { destruct (HistoryFacts.reachable_good toy_laws Debug tpp4 tpk4 tsk7 tpp4_ok tsk7_reachable) as (x & _ & _ & Hg & _).
    apply (ShapeFacts.good_shape tpp4 x tsk7 tpp4_ok) in Hg. destruct Hg as [_ H2 H3 H4].
    constructor; [reflexivity|exact H2|exact H3|exact H4]. }
  split; [vm_cast_no_check (eq_refl (@Err (signature toy) E_CIPHERSUITE, tsk_cs5'))|]. split; reflexivity.
Qed.

(** * C44 *)
Definition tsk_none : seckey toy := @SecKey toy 0 7 [] (sec_prng tsk7).
Definition tsk_novec : seckey toy :=
  @SecKey toy 0 7 (map (fun s : subkey toy => @SubKey toy (sk_t s) (sk_g2r s) (sk_hpoly s) []) (sec_ssk tsk7)) (sec_prng tsk7).
Definition tsk_extra : seckey toy :=
  @SecKey toy 0 7 (sec_ssk tsk7 ++ [hd (tssk 0 0) (sec_ssk tsk7)]) (sec_prng tsk7).
Lemma validated_key_unusable : exists (E : env) (pp : pubparam E) pk sk sk2,
  env_laws E /\ pp_ok pp
  /\ sk_validate Debug sk pk pp = Ok true /\ sec_ssk sk = []
  /\ (forall msg, is_ok (fst (sign_present Debug (sec_time sk) pp msg sk)) = false)
  /\ sk_validate Debug sk2 pk pp = Ok true /\ map sk_t (sec_ssk sk2) = [7; 8; 9]
  /\ (exists blob, from_slice (sk_deserialize true) blob = Ok sk2)
  /\ fst (sign_present Debug (sec_time sk2) pp [] sk2) = Err E_SSK_EMPTY.
Proof.
  exists toy, tpp4, tpk4, tsk_none, tsk_novec. split; [exact toy_laws|]. split; [exact tpp4_ok|].
  split; [apply (validate_empty toy Debug tpp4 tpk4 7 (sec_prng tsk7)); [cbn; lia|reflexivity|split; intros H; discriminate H]|].
  split; [reflexivity|]. split.
  { intros msg. unfold sign_present, sbind, sget, slift. cbn [sec_time tsk_none N.eqb Pos.eqb negb fst].
    unfold sign_bytes. replace (valid_cs (pp_cs tpp4)) with true by reflexivity.
    replace (sec_cs tsk_none =? pp_cs tpp4) with true by reflexivity. cbn [negb sec_time tsk_none N.eqb Pos.eqb].
    destruct (sample _ _ _) as [r| |]; [cbn [bind]|reflexivity|reflexivity].
    destruct (hash_msg_into_fr _ _ _) as [h| |]; [cbn [bind]|reflexivity|reflexivity]. reflexivity. }
  split; [vm_cast_no_check (eq_refl (Ok true))|]. split; [reflexivity|].
  split; [exists (sk_blob true tsk_novec); vm_cast_no_check (eq_refl (Ok tsk_novec))|].
  vm_cast_no_check (eq_refl (@Err (signature toy) E_SSK_EMPTY)).
Qed.
Lemma validate_can_panic : exists (E : env) (pp : pubparam E) pk sk,
  env_laws E /\ pp_ok pp /\ (exists blob, from_slice (sk_deserialize true) blob = Ok sk)
  /\ sk_validate Debug sk pk pp = Panic P_INDEX.
Proof.
  exists toy, tpp4, tpk4, tsk_extra. split; [exact toy_laws|]. split; [exact tpp4_ok|].
  split; [exists (sk_blob true tsk_extra); vm_cast_no_check (eq_refl (Ok tsk_extra))|].
  vm_cast_no_check (eq_refl (@Panic bool P_INDEX)).
Qed.

(** * C52 *)
Lemma signature_equality_loose : exists (E : env) (a b : signature E),
  env_laws E /\ sig_eqb a b = true /\ sig_time a <> sig_time b /\ sig_cs a <> sig_cs b.
Proof.
  exists toy, tsig7, (@Signature toy 1 8 (sig_1 tsig7) (sig_2 tsig7)). split; [exact toy_laws|].
  split; [apply (signature_equality toy toy_laws); split; reflexivity|]. split; intros H; discriminate H.
Qed.
