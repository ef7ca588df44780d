(** Properties C29-C39: byte formats (src/serdes.rs) and digest (src/secret_key.rs).
    Specification vocabulary: SpecSer.v (formats [*_blob], representable objects [wf_*],
    readers [content], [calm], [patient], writers [appends], [refuses], [willing]). *)
From Coq Require Import String.
From Verif Require Import Base Env Time Hkdf SpecTime Prng SpecPrng SubKey SecretKey Keys Sig IO Serdes Api
  SpecKey SpecUpdate SpecDerive SpecSer SerProps Toy ToyRun WitProps WitSigProps WitSerProps.
Local Open Scope N_scope.

(** C29 *)
Theorem C29_signature_roundtrip : forall (E : env) (L : env_laws E) (s : signature E),
  wf_sig s ->
  to_vec (sig_serialize s true) = Ok (sig_blob true s) /\ length (sig_blob true s) = 149%nat
  /\ forall r rest, content r = sig_blob true s ++ rest ->
     exists r', sig_deserialize true r = (Ok s, r') /\ content r' = rest.
Proof. exact sig_roundtrip. Qed.
Print Assumptions C29_signature_roundtrip.

Theorem C29_signatures_representable : forall (E : env) (L : env_laws E) m (pp : pubparam E) pk sk o s sk',
  pp_ok pp -> (pp_depth pp <= 32)%nat -> reachable m pp pk sk -> step m pp o sk = (Ok (Some s), sk') -> wf_sig s.
Proof. exact reachable_sig_representable. Qed.
Print Assumptions C29_signatures_representable.

Example C29_example : step Debug tpp4 (OpSignPresent 7 (str "hello")) tsk7 = (Ok (Some tsig7), tsk7)
  /\ to_vec (sig_serialize tsig7 true) = Ok tsigblob7 /\ length tsigblob7 = 149%nat
  /\ firstn 5 tsigblob7 = [0; 0; 0; 0; 7]
  /\ from_slice (sig_deserialize true) tsigblob7 = Ok tsig7.
Proof.
  split; [cbn [step]; unfold sbind; rewrite tsig7_ok; reflexivity|].
  split; [vm_cast_no_check (eq_refl (Ok tsigblob7))|]. split; [reflexivity|]. split; [reflexivity|].
  vm_cast_no_check (eq_refl (Ok tsig7)).
Qed.

(** C30.  (That the size is the one [estimate_size] predicts is C14.) *)
Theorem C30_secret_key_roundtrip : forall (E : env) (L : env_laws E) c (sk : seckey E),
  wf_sk sk ->
  to_vec (sk_serialize sk c) = Ok (sk_blob c sk)
  /\ length (sk_blob true sk) = sk_size sk
  /\ forall r rest, calm r -> content r = sk_blob c sk ++ rest ->
     exists r', sk_deserialize c r = (Ok sk, r') /\ content r' = rest.
Proof. exact sk_roundtrip. Qed.
Print Assumptions C30_secret_key_roundtrip.

Theorem C30_keys_representable : forall (E : env) (L : env_laws E) m (pp : pubparam E) pk sk,
  pp_ok pp -> (pp_depth pp <= 32)%nat -> reachable m pp pk sk -> wf_sk sk.
Proof. exact reachable_sk_representable. Qed.
Print Assumptions C30_keys_representable.

(** Not for depths above 32. *)
Theorem C30_any_depth_refuted : exists (E : env) (pp : pubparam E) pk sk,
  env_laws E /\ pp_ok pp /\ reachable Debug pp pk sk /\ to_vec (sk_serialize sk true) = Err E_SERIAL.
Proof. exact deep_key_not_saved. Qed.
Print Assumptions C30_any_depth_refuted.

Example C30_example : to_vec (sk_serialize tsk7 true) = Ok tblob7 /\ length tblob7 = sk_size tsk7
  /\ firstn 2 tblob7 = [0; 3] /\ from_slice (sk_deserialize true) tblob7 = Ok tsk7.
Proof.
  split; [vm_cast_no_check (eq_refl (Ok tblob7))|]. split; [reflexivity|]. split; [reflexivity|].
  vm_cast_no_check (eq_refl (Ok tsk7)).
Qed.

(** C31 *)
Theorem C31_public_key_roundtrip : forall (E : env) (L : env_laws E) c (pk : pubkey E),
  wf_pk pk ->
  to_vec (pk_serialize pk c) = Ok (pk_blob c pk) /\ length (pk_blob true pk) = 49%nat
  /\ forall r rest, content r = pk_blob c pk ++ rest ->
     exists r', pk_deserialize c r = (Ok pk, r') /\ content r' = rest.
Proof. exact pk_roundtrip. Qed.
Print Assumptions C31_public_key_roundtrip.

Theorem C31_pop_roundtrip : forall (E : env) (L : env_laws E) c (x : proof E),
  wf_pop x ->
  to_vec (pop_serialize x c) = Ok (pop_blob c x) /\ length (pop_blob true x) = 97%nat
  /\ forall r rest, content r = pop_blob c x ++ rest ->
     exists r', pop_deserialize c r = (Ok x, r') /\ content r' = rest.
Proof. exact pop_roundtrip. Qed.
Print Assumptions C31_pop_roundtrip.

Theorem C31_keygen_representable : forall (E : env) (L : env_laws E) (pp : pubparam E) seed pk sk pop,
  pp_ok pp -> key_gen seed pp = Ok (pk, sk, pop) -> wf_pk pk /\ wf_pop pop.
Proof. exact keygen_representable. Qed.
Print Assumptions C31_keygen_representable.

Example C31_example : wf_pk tpk4 /\ wf_pop tpop4 /\ length (pop_blob false tpop4) = 193%nat.
Proof.
  destruct (C31_keygen_representable toy toy_laws tpp4 tseed tpk4 tsk4 tpop4 tpp4_ok tkeygen).
  split; [assumption|]. split; [assumption|vm_cast_no_check (eq_refl 193%nat)].
Qed.

(** C32 *)
Theorem C32_signature_input_checked : forall (E : env) (c : bool) r,
  is_panic (fst (@sig_deserialize E c r)) = false
  /\ forall s r', @sig_deserialize E c r = (Ok s, r') ->
     supported (sig_cs s) /\ 1 <= sig_time s /\ (length (content r') + 149 = length (content r))%nat.
Proof. exact sig_deserialize_checked. Qed.
Print Assumptions C32_signature_input_checked.

Theorem C32_public_key_input_checked : forall (E : env) (c : bool) r,
  is_panic (fst (@pk_deserialize E c r)) = false
  /\ forall x r', @pk_deserialize E c r = (Ok x, r') ->
     supported (pk_cs x) /\ (length (content r') + (1 + g2_size c) = length (content r))%nat.
Proof. exact pk_deserialize_checked. Qed.
Print Assumptions C32_public_key_input_checked.

Theorem C32_pop_input_checked : forall (E : env) (c : bool) r,
  is_panic (fst (@pop_deserialize E c r)) = false
  /\ forall x r', @pop_deserialize E c r = (Ok x, r') ->
     supported (pop_cs x) /\ (length (content r') + (1 + g1_size c) = length (content r))%nat.
Proof. exact pop_deserialize_checked. Qed.
Print Assumptions C32_pop_input_checked.

Theorem C32_secret_key_input_checked : forall (E : env) (c : bool) r,
  is_panic (fst (@sk_deserialize E c r)) = false
  /\ forall x r', @sk_deserialize E c r = (Ok x, r') ->
     supported (sec_cs x) /\ sec_ssk x <> [] /\ Forall (fun s => 1 <= sk_t s) (sec_ssk x)
     /\ length (sec_prng x) = 64%nat
     /\ (calm r -> (length (content r') + sk_bytes c (map (fun s => length (sk_hvec s)) (sec_ssk x)) = length (content r))%nat).
Proof. exact sk_deserialize_checked. Qed.
Print Assumptions C32_secret_key_input_checked.

Example C32_example :
  @from_slice (signature toy) (sig_deserialize true) (0 :: repeat 0 148) = Err E_TIME_STAMP
  /\ @from_slice (signature toy) (sig_deserialize true) (5 :: skipn 1 tsigblob7) = Err E_CIPHERSUITE
  /\ @from_slice (signature toy) (sig_deserialize true) (firstn 148 tsigblob7) = Err E_IO
  /\ @from_slice (seckey toy) (sk_deserialize true) (0 :: 0 :: skipn 2 tblob7) = Err E_DESERIAL
  /\ is_ok (@from_slice (seckey toy) (sk_deserialize true) (tblob7 ++ [1; 2])) = true.
Proof.
  split; [vm_cast_no_check (eq_refl (@Err (signature toy) E_TIME_STAMP))|].
  split; [vm_cast_no_check (eq_refl (@Err (signature toy) E_CIPHERSUITE))|].
  split; [vm_cast_no_check (eq_refl (@Err (signature toy) E_IO))|].
  split; [vm_cast_no_check (eq_refl (@Err (seckey toy) E_DESERIAL))|vm_cast_no_check (eq_refl true)].
Qed.

(** C33 *)
Theorem C33_signature_canonical : forall (E : env) (L : env_laws E) r (x : signature E) r',
  are_bytes (content r) -> sig_deserialize true r = (Ok x, r') -> content r = sig_blob true x ++ content r'.
Proof. exact sig_canonical. Qed.
Print Assumptions C33_signature_canonical.

Theorem C33_public_key_canonical : forall (E : env) (L : env_laws E) r (x : pubkey E) r',
  are_bytes (content r) -> pk_deserialize true r = (Ok x, r') -> content r = pk_blob true x ++ content r'.
Proof. exact pk_canonical. Qed.
Print Assumptions C33_public_key_canonical.

Theorem C33_pop_canonical : forall (E : env) (L : env_laws E) r (x : proof E) r',
  are_bytes (content r) -> pop_deserialize true r = (Ok x, r') -> content r = pop_blob true x ++ content r'.
Proof. exact pop_canonical. Qed.
Print Assumptions C33_pop_canonical.

Theorem C33_secret_key_canonical : forall (E : env) (L : env_laws E) r (x : seckey E) r',
  calm r -> are_bytes (content r) -> sk_deserialize true r = (Ok x, r') -> content r = sk_blob true x ++ content r'.
Proof. exact sk_canonical. Qed.
Print Assumptions C33_secret_key_canonical.

Example C33_example : are_bytes tblob7 /\ calm (rpush tblob7 []) /\ sk_blob true tsk7 = tblob7.
Proof.
  split; [|split; [repeat constructor; exists tblob7; split; [intros H; discriminate H|reflexivity]|exact tblob7_ok]].
  assert (H : forallb (fun b => b <? 256) tblob7 = true) by vm_cast_no_check (eq_refl true).
  apply Forall_forall. intros b Hb. rewrite forallb_forall in H. apply N.ltb_lt, H, Hb.
Qed.

(** C34 *)
Theorem C34_uncompressed_signature_rejected : forall (E : env) r, is_ok (fst (@sig_deserialize E false r)) = false.
Proof. exact uncompressed_sig_rejected. Qed.
Print Assumptions C34_uncompressed_signature_rejected.

Theorem C34_uncompressed_signature_roundtrip_refuted : exists (E : env) (s : signature E),
  env_laws E /\ wf_sig s /\ to_vec (sig_serialize s false) = Ok (sig_blob false s)
  /\ @from_slice (signature E) (sig_deserialize false) (sig_blob false s) = Err E_COMPRESS.
Proof. exact uncompressed_sig_not_readable. Qed.
Print Assumptions C34_uncompressed_signature_roundtrip_refuted.

Theorem C34_uncompressed_pop_accepted : forall (E : env) (L : env_laws E) (x : proof E),
  wf_pop x -> to_vec (pop_serialize x false) = Ok (pop_blob false x)
              /\ from_slice (pop_deserialize false) (pop_blob false x) = Ok x.
Proof. exact uncompressed_pop_accepted. Qed.
Print Assumptions C34_uncompressed_pop_accepted.

Theorem C34_pop_must_be_compressed_refuted : exists (E : env) (x : proof E),
  env_laws E /\ wf_pop x /\ from_slice (pop_deserialize false) (pop_blob false x) = Ok x.
Proof. exact uncompressed_pop_readable. Qed.
Print Assumptions C34_pop_must_be_compressed_refuted.

(** C35 *)
Theorem C35_sub_key_time_bound : forall (E : env) (L : env_laws E) c (x : subkey E) w,
  (2^32 < sk_t x -> ssk_serialize x c w = (Err E_SERIAL, w))
  /\ (sk_t x = 2^32 ->
      to_vec (ssk_serialize x c) = Ok (ssk_blob c x) /\ firstn 4 (ssk_blob c x) = [0; 0; 0; 0]
      /\ @from_slice (subkey E) (ssk_deserialize c) (ssk_blob c x) = Err E_TIME_STAMP).
Proof. exact ssk_time_bound. Qed.
Print Assumptions C35_sub_key_time_bound.

Theorem C35_time_bound_documented_refuted : exists (E : env) (x : subkey E) blob,
  env_laws E /\ 2^32 - 1 < sk_t x /\ to_vec (ssk_serialize x true) = Ok blob
  /\ @from_slice (subkey E) (ssk_deserialize true) blob = Err E_TIME_STAMP.
Proof. exact ssk_time_2_32_written. Qed.
Print Assumptions C35_time_bound_documented_refuted.

(** C36 *)
Theorem C36_chunks_irrelevant : forall (E : env) c r1 r2,
  calm r1 -> calm r2 -> content r1 = content r2 ->
  fst (@sig_deserialize E c r1) = fst (@sig_deserialize E c r2)
  /\ fst (@pk_deserialize E c r1) = fst (@pk_deserialize E c r2)
  /\ fst (@pop_deserialize E c r1) = fst (@pop_deserialize E c r2)
  /\ fst (@sk_deserialize E c r1) = fst (@sk_deserialize E c r2).
Proof. exact chunks_irrelevant. Qed.
Print Assumptions C36_chunks_irrelevant.

Theorem C36_interruptions_irrelevant : forall (E : env) c r1 r2,
  content r1 = content r2 ->
  fst (@sig_deserialize E c r1) = fst (@sig_deserialize E c r2)
  /\ fst (@pk_deserialize E c r1) = fst (@pk_deserialize E c r2)
  /\ fst (@pop_deserialize E c r1) = fst (@pop_deserialize E c r2).
Proof. exact interruptions_irrelevant. Qed.
Print Assumptions C36_interruptions_irrelevant.

Theorem C36_interrupted_secret_key_refuted : exists (E : env) (sk : seckey E) r,
  env_laws E /\ wf_sk sk /\ patient r /\ content r = sk_blob true sk
  /\ to_vec (sk_serialize sk true) = Ok (sk_blob true sk)
  /\ from_slice (sk_deserialize true) (sk_blob true sk) = Ok sk
  /\ fst (@sk_deserialize E true r) = Err E_DESERIAL.
Proof. exact interrupted_key_rejected. Qed.
Print Assumptions C36_interrupted_secret_key_refuted.

Example C36_example :
  let r := [RData (firstn 3 tblob7); RData (firstn 67 (skipn 3 tblob7)); RData (skipn 70 tblob7)] in
  calm r /\ content r = tblob7 /\ fst (sk_deserialize true r) = Ok tsk7.
Proof.
  split; [repeat constructor; eexists; (split; [|reflexivity]; intros H; discriminate H)|]. split; [reflexivity|].
  vm_cast_no_check (eq_refl (Ok tsk7)).
Qed.

(** C37 *)
Theorem C37_signature_write : forall (E : env) c (s : signature E),
  (supported (sig_cs s) /\ sig_time s < 2^32 ->
     appends (sig_serialize s c) (sig_blob c s) /\ forall w, willing w -> fst (sig_serialize s c w) = Ok tt)
  /\ (~ (supported (sig_cs s) /\ sig_time s < 2^32) -> refuses (sig_serialize s c)).
Proof. exact sig_write. Qed.
Print Assumptions C37_signature_write.

Theorem C37_public_key_write : forall (E : env) c (x : pubkey E),
  (supported (pk_cs x) ->
     appends (pk_serialize x c) (pk_blob c x) /\ forall w, willing w -> fst (pk_serialize x c w) = Ok tt)
  /\ (~ supported (pk_cs x) -> refuses (pk_serialize x c)).
Proof. exact pk_write. Qed.
Print Assumptions C37_public_key_write.

Theorem C37_pop_write : forall (E : env) c (x : proof E),
  (supported (pop_cs x) ->
     appends (pop_serialize x c) (pop_blob c x) /\ forall w, willing w -> fst (pop_serialize x c w) = Ok tt)
  /\ (~ supported (pop_cs x) -> refuses (pop_serialize x c)).
Proof. exact pop_write. Qed.
Print Assumptions C37_pop_write.

Theorem C37_secret_key_write : forall (E : env) c (x : seckey E),
  (supported (sec_cs x) /\ Forall (fun s => sk_t s <= 2^32) (sec_ssk x) ->
     appends (sk_serialize x c) (sk_blob c x) /\ forall w, willing w -> fst (sk_serialize x c w) = Ok tt)
  /\ (~ (supported (sec_cs x) /\ Forall (fun s => sk_t s <= 2^32) (sec_ssk x)) -> refuses (sk_serialize x c)).
Proof. exact sk_write. Qed.
Print Assumptions C37_secret_key_write.

Example C37_example :
  sig_serialize tsig7 true (Writer [9] [WAccept 2; WIntr; WAccept 200]) = (Ok tt, Writer (9 :: tsigblob7) [])
  /\ sig_serialize tsig7 true (Writer [9] [WAccept 2; WFail]) = (Err E_IO, Writer [9; 0; 0] [])
  /\ sig_serialize (@Signature toy 5 7 (mk r2 0) (mk r1 0)) true (Writer [9] [WFail]) = (Err E_CIPHERSUITE, Writer [9] [WFail]).
Proof.
  split; [vm_cast_no_check (eq_refl (@Ok unit tt, Writer (9 :: tsigblob7) []))|].
  split; [vm_cast_no_check (eq_refl (@Err unit E_IO, Writer [9; 0; 0] []))|].
  vm_cast_no_check (eq_refl (@Err unit E_CIPHERSUITE, Writer [9] [WFail])).
Qed.

(** C38 *)
Theorem C38_reload_anywhere : forall (E : env) (L : env_laws E) m (pp : pubparam E) pk sk c ops1 ops2,
  pp_ok pp -> (pp_depth pp <= 32)%nat -> reachable m pp pk sk ->
  let r := run m pp (ops1 ++ OpReload c :: ops2) sk in
  let r0 := run m pp (ops1 ++ ops2) sk in
  snd r = snd r0 /\ nth_error (fst r) (length ops1) = Some (Ok None)
  /\ fst r0 = firstn (length ops1) (fst r) ++ skipn (length ops1 + 1) (fst r).
Proof. exact reload_anywhere. Qed.
Print Assumptions C38_reload_anywhere.

Theorem C38_reloads_invisible : forall (E : env) (L : env_laws E) m (pp : pubparam E) pk sk ops,
  pp_ok pp -> (pp_depth pp <= 32)%nat -> reachable m pp pk sk ->
  let r := run m pp ops sk in
  let r0 := run m pp (filter keeps ops) sk in
  snd r = snd r0
  /\ fst r0 = map snd (filter (fun x => keeps (fst x)) (combine ops (fst r)))
  /\ forall i c, nth_error ops i = Some (OpReload c) -> nth_error (fst r) i = Some (Ok None).
Proof. exact reloads_invisible. Qed.
Print Assumptions C38_reloads_invisible.

Example C38_example : (pp_depth tpp4 <= 32)%nat /\ filter keeps thist <> thist
  /\ run Debug tpp4 (filter keeps thist) tsk4 = (firstn 4 tres ++ skipn 5 tres, tsk7).
Proof.
  split; [cbn; lia|]. split; [intros H; discriminate H|].
  vm_cast_no_check (eq_refl (firstn 4 tres ++ skipn 5 tres, tsk7)).
Qed.

(** C39 *)
Theorem C39_digest_value : forall (E : env) (L : env_laws E) (sk : seckey E),
  wf_sk sk -> sk_digest sk = Ok (sha512 E (repeat 0 (length (sk_blob true sk)) ++ sk_blob true sk)).
Proof. exact digest_value. Qed.
Print Assumptions C39_digest_value.

Theorem C39_digest_of_reachable_keys : forall (E : env) (L : env_laws E) m (pp : pubparam E) pk sk,
  pp_ok pp -> (pp_depth pp <= 32)%nat -> reachable m pp pk sk ->
  sk_digest sk = Ok (sha512 E (repeat 0 (length (sk_blob true sk)) ++ sk_blob true sk)).
Proof. exact reachable_digest. Qed.
Print Assumptions C39_digest_of_reachable_keys.

Theorem C39_digest_binds_key : forall (E : env) (L : env_laws E) (sk1 sk2 : seckey E),
  wf_sk sk1 -> wf_sk sk2 -> sk_digest sk1 = sk_digest sk2 ->
  sk1 = sk2 \/ exists a b, a <> b /\ sha512 E a = sha512 E b.
Proof. exact digest_binds_key. Qed.
Print Assumptions C39_digest_binds_key.

Theorem C39_digest_is_hash_of_blob_refuted : exists (E : env) (pp : pubparam E) pk sk blob,
  env_laws E /\ pp_ok pp /\ reachable Debug pp pk sk /\ to_vec (sk_serialize sk true) = Ok blob
  /\ sk_digest sk <> Ok (sha512 E blob).
Proof. exact digest_not_of_blob. Qed.
Print Assumptions C39_digest_is_hash_of_blob_refuted.
