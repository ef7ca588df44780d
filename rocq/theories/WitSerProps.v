(** Witnesses, computed in the toy environment, behind the [_refuted] theorems on
    serialization. *)
From Coq Require Import String.
From Verif Require Import Base Env Time SpecTime Hkdf Prng SubKey SecretKey Keys Sig IO Serdes Api Ffi
  SpecKey SpecUpdate SpecSer Sha512 Toy ToyRun WitSigProps SerProps PrngFacts FfiProps.
Local Open Scope N_scope.

Definition tblob7 : bytes := Eval vm_compute in sk_blob true tsk7.
Lemma tblob7_ok : sk_blob true tsk7 = tblob7.
Proof. vm_cast_no_check (eq_refl tblob7). Qed.
Definition tsigblob7 : bytes := Eval vm_compute in sig_blob true tsig7.
Definition tsigblob7u : bytes := Eval vm_compute in sig_blob false tsig7.
Definition tpopblob4u : bytes := Eval vm_compute in pop_blob false tpop4.
Lemma tsk7_wf : wf_sk tsk7.
Proof.
  apply (reachable_sk_representable toy toy_laws Debug tpp4 tpk4 tsk7 tpp4_ok); [|exact tsk7_reachable].
  cbn. lia.
Qed.

(** C36: the same bytes, interrupted just before the vector length of the first sub key. *)
Definition tinterrupted : reader := [RData (firstn 70 tblob7); RIntr; RData (skipn 70 tblob7)].
Lemma interrupted_key_rejected : exists (E : env) (sk : seckey E) r,
  env_laws E /\ wf_sk sk /\ patient r /\ content r = sk_blob true sk
  /\ to_vec (sk_serialize sk true) = Ok (sk_blob true sk)
  /\ from_slice (sk_deserialize true) (sk_blob true sk) = Ok sk
  /\ fst (@sk_deserialize E true r) = Err E_DESERIAL.
Proof.
  exists toy, tsk7, tinterrupted. split; [exact toy_laws|]. split; [exact tsk7_wf|]. rewrite tblob7_ok.
  split; [repeat constructor; intros H; discriminate H|]. split; [reflexivity|].
  rewrite <- tblob7_ok. split; [exact (proj1 (sk_roundtrip toy toy_laws true tsk7 tsk7_wf))|].
  split; [exact (FfiProps.slice_sk toy_laws true tsk7 tsk7_wf)|].
  vm_cast_no_check (eq_refl (@Err (seckey toy) E_DESERIAL)).
Qed.

(** C34 *)
Lemma uncompressed_sig_not_readable : exists (E : env) (s : signature E),
  env_laws E /\ wf_sig s /\ to_vec (sig_serialize s false) = Ok (sig_blob false s)
  /\ @from_slice (signature E) (sig_deserialize false) (sig_blob false s) = Err E_COMPRESS.
Proof.
  exists toy, tsig7. split; [exact toy_laws|].
  split; [|split; [vm_cast_no_check (eq_refl (Ok tsigblob7u))|vm_cast_no_check (eq_refl (@Err (signature toy) E_COMPRESS))]].
  apply (reachable_sig_representable toy toy_laws Debug tpp4 tpk4 tsk7 (OpSignPresent 7 (str "hello")) tsig7 tsk7 tpp4_ok);
    [cbn; lia|exact tsk7_reachable|]. cbn [step]. unfold sbind. rewrite tsig7_ok. reflexivity.
Qed.
Lemma uncompressed_pop_readable : exists (E : env) (x : proof E),
  env_laws E /\ wf_pop x /\ from_slice (pop_deserialize false) (pop_blob false x) = Ok x.
Proof.
  exists toy, tpop4. split; [exact toy_laws|]. 
  destruct (keygen_representable toy toy_laws tpp4 tseed tpk4 tsk4 tpop4 tpp4_ok tkeygen) as [_ H].
  split; [exact H|]. apply (uncompressed_pop_accepted toy toy_laws tpop4 H).
Qed.

(** C35 *)
Definition tssk32 : subkey toy := @SubKey toy (2^32) (mk r2 5) (mk r1 6) [mk r1 7].
Definition tssk32_blob : bytes := Eval vm_compute in ssk_blob true tssk32.
Lemma ssk_time_2_32_written : exists (E : env) (x : subkey E) blob,
  env_laws E /\ 2^32 - 1 < sk_t x /\ to_vec (ssk_serialize x true) = Ok blob
  /\ @from_slice (subkey E) (ssk_deserialize true) blob = Err E_TIME_STAMP.
Proof.
  exists toy, tssk32, tssk32_blob. split; [exact toy_laws|]. split; [reflexivity|].
  split; [vm_cast_no_check (eq_refl (Ok tssk32_blob))|vm_cast_no_check (eq_refl (@Err (subkey toy) E_TIME_STAMP))].
Qed.

(** C30: with depth above 32 there are keys that can not be saved. *)
Definition tpp33 : pubparam toy := Eval vm_compute in
  @PubParam toy 33 0 toy_one (mk r1 3) (map (fun i => mk r1 (3 * N.of_nat i)) (seq 2 4) ++ repeat (mk r1 0) 30).
Lemma tpp33_ok : pp_ok tpp33.
Proof.
  constructor; [cbn [tpp33 pp_depth]; lia|exact (le_n 34)| | |exact toy_one_sub].
  - apply Forall_forall, (proj1 (forallb_forall in1 (pp_hlist tpp33))). vm_cast_no_check (@eq_refl bool true).
  - vm_cast_no_check (@eq_refl bool true).
Qed.
Definition tkg33 : pubkey toy * seckey toy * proof toy := Eval vm_compute in get tdflt (key_gen tseed tpp33).
Definition tpk33 : pubkey toy := Eval cbv beta iota delta [fst3 fst snd tkg33] in fst3 tkg33.
Definition tsk33 : seckey toy := Eval cbv beta iota delta [snd3 fst snd tkg33] in snd3 tkg33.
Definition tpop33 : proof toy := Eval cbv beta iota delta [fst snd tkg33] in snd tkg33.
Lemma tkeygen33 : key_gen tseed tpp33 = Ok (tpk33, tsk33, tpop33).
Proof. vm_cast_no_check (eq_refl (Ok (tpk33, tsk33, tpop33))). Qed.
Definition tup33 : res unit * seckey toy := Eval vm_compute in update Debug tpp33 (2^32 + 1) [] tsk33.
Definition tsk33' : seckey toy := Eval cbv beta iota delta [fst snd tup33] in snd tup33.
Lemma deep_key_not_saved : exists (E : env) (pp : pubparam E) pk sk,
  env_laws E /\ pp_ok pp /\ reachable Debug pp pk sk /\ to_vec (sk_serialize sk true) = Err E_SERIAL.
Proof.
  exists toy, tpp33, tpk33, tsk33'. split; [exact toy_laws|]. split; [exact tpp33_ok|].
  split; [|vm_cast_no_check (eq_refl (@Err bytes E_SERIAL))].
  exists tseed, tsk33, tpop33, [OpUpdate (2^32 + 1) []]. split; [exact tkeygen33|].
  vm_cast_no_check (eq_refl tsk33').
Qed.

(** C39 *)
Lemma digest_differs (E : env) (L : env_laws E) (sk : seckey E) b : wf_sk sk ->
  bytes_eqb (sha512 E (repeat 0 (length (sk_blob true sk)) ++ sk_blob true sk)) (sha512 E b) = false ->
  sk_digest sk <> Ok (sha512 E b).
Proof.
  intros Hw Hb H. rewrite (digest_value E L sk Hw) in H. revert H Hb. generalize (repeat 0 (length (sk_blob true sk)) ++ sk_blob true sk).
  intros a H Hb. injection H as H. rewrite (proj2 (bytes_eqb_eq _ _) H) in Hb. discriminate Hb.
Qed.
Lemma digest_not_of_blob : exists (E : env) (pp : pubparam E) pk sk blob,
  env_laws E /\ pp_ok pp /\ reachable Debug pp pk sk /\ to_vec (sk_serialize sk true) = Ok blob
  /\ sk_digest sk <> Ok (sha512 E blob).
Proof.
  exists toy, tpp4, tpk4, tsk7, tblob7. split; [exact toy_laws|]. split; [exact tpp4_ok|]. split; [exact tsk7_reachable|].
  split; [vm_cast_no_check (eq_refl (Ok tblob7))|].
  apply (digest_differs toy toy_laws tsk7 tblob7 tsk7_wf). vm_cast_no_check (eq_refl false).
Qed.
