(** Properties C40-C42 and C58: the prng (src/prng.rs) and domain separation
    (src/domain_sep.rs).
    Specification vocabulary: SpecPrng.v ([os2ip], [hkdf_T1], [hkdf_T2], [purpose],
    [info_of], [spec_md_rerandomize]), SpecUpdate.v ([spec_reseed], [draws], [added]),
    SpecKey.v ([honest_ssk], [honest_sig]). *)
From Coq Require Import String.
From Verif Require Import Base Env Time Hkdf SpecTime Prng SpecPrng SubKey SecretKey Keys Sig IO Serdes Api
  SpecKey SpecUpdate PrngProps Sha512 Toy ToyRun.
Local Open Scope N_scope.

(** C40 *)
Theorem C40_os2ip_value : forall l,
  ((length l <= 64)%nat -> os2ip_mod_p l = Ok (os2ip l mod fr_modulus))
  /\ ((64 < length l)%nat -> os2ip_mod_p l = Panic P_OS2IP).
Proof. exact os2ip_value. Qed.
Print Assumptions C40_os2ip_value.

Theorem C40_os2ip_range : forall l x, os2ip_mod_p l = Ok x -> x < fr_modulus.
Proof. exact os2ip_range. Qed.
Print Assumptions C40_os2ip_range.

Theorem C40_os2ip_leading_zeros : forall n l, (n + length l <= 64)%nat ->
  os2ip_mod_p (repeat 0 n ++ l) = os2ip_mod_p l.
Proof. exact os2ip_leading_zeros. Qed.
Print Assumptions C40_os2ip_leading_zeros.

(** The vectors of src/test/prng.rs (2^128, 2^256, 2^384). *)
Example C40_example :
  os2ip_mod_p [255; 255] = Ok 65535
  /\ os2ip_mod_p (1 :: repeat 0 16) = Ok 340282366920938463463374607431768211456
  /\ os2ip_mod_p (1 :: repeat 0 32) = Ok 10920338887063814464675503992315976177888879664585288394250266608035967270910
  /\ os2ip_mod_p (1 :: repeat 0 48) = Ok 20690987792304517493546419304065979215229097455316523017309531943206242971949.
Proof. vm_compute. repeat split. Qed.

(** C41 *)
Theorem C41_prng_functions : forall H, (forall b, length (H b) = 64%nat) -> forall g seed salt info,
  prng_init H seed salt = rfc_hmac H salt seed
  /\ sample H g info = Ok (os2ip (hkdf_T1 H g info) mod fr_modulus)
  /\ sample_then_update H g info = Ok (os2ip (hkdf_T1 H g info) mod fr_modulus, hkdf_T2 H g info)
  /\ rerandomize H g seed info = Ok (rfc_hmac H (hkdf_T2 H g info) (hkdf_T1 H g info ++ seed)).
Proof. exact prng_functions. Qed.
Print Assumptions C41_prng_functions.

Theorem C41_prng_states : forall H, (forall b, length (H b) = 64%nat) -> forall g seed salt info,
  length (prng_init H seed salt) = 64%nat
  /\ (forall x, sample H g info = Ok x -> x < fr_modulus)
  /\ (forall x g', sample_then_update H g info = Ok (x, g') -> x < fr_modulus /\ length g' = 64%nat)
  /\ (forall g', rerandomize H g seed info = Ok g' -> length g' = 64%nat).
Proof. exact prng_states. Qed.
Print Assumptions C41_prng_states.

Theorem C41_prng_of_reachable_keys : forall (E : env) (L : env_laws E) m (pp : pubparam E) pk sk,
  pp_ok pp -> reachable m pp pk sk -> length (sec_prng sk) = 64%nat /\ are_bytes (sec_prng sk).
Proof. exact reachable_prng. Qed.
Print Assumptions C41_prng_of_reachable_keys.

(** The vectors of src/test/prng.rs, with the real SHA-512. *)
Definition kat0 : prng := Eval vm_compute in prng_init sha512_real (str "seed") (str "salt").
Definition kat1 : prng := Eval vm_compute in
  snd (get (0, []) (sample_then_update sha512_real kat0 (str "info"))).
Definition kat2 : prng := Eval vm_compute in
  match rerandomize sha512_real kat1 (str "seed") (str "info") with Ok g => g | _ => [] end.
Definition kat3 : prng := Eval vm_compute in
  snd (get (0, []) (sample_then_update sha512_real kat2 (str "info"))).
Example C41_example :
  (forall b, length (sha512_real b) = 64%nat)
  /\ prng_init sha512_real (str "seed") (str "salt") = kat0 /\ firstn 4 kat0 = [0xde; 0x08; 0xde; 0xe9]
  /\ sample_then_update sha512_real kat0 (str "info")
     = Ok (43319743699496810973708981086850604276149960407194162211265932872777355818354, kat1)
  /\ firstn 4 kat1 = [0x41; 0xfa; 0x66; 0x27]
  /\ sample sha512_real kat1 (str "info") = Ok 22074932395097706468768456200905687926580984780754047608537081666156889203804
  /\ rerandomize sha512_real kat1 (str "seed") (str "info") = Ok kat2
  /\ sample_then_update sha512_real kat2 (str "info")
     = Ok (48069835158087822550484484210577332719983619747502722069618962092332582181716, kat3)
  /\ firstn 4 kat3 = [0x1a; 0x70; 0xb7; 0x82].
Proof.
  split; [exact sha512_real_len|]. split; [vm_cast_no_check (eq_refl kat0)|]. split; [reflexivity|].
  split; [vm_cast_no_check (eq_refl (Ok (43319743699496810973708981086850604276149960407194162211265932872777355818354, kat1)))|].
  split; [reflexivity|].
  split; [vm_cast_no_check (eq_refl (Ok 22074932395097706468768456200905687926580984780754047608537081666156889203804))|].
  split; [vm_cast_no_check (eq_refl (Ok kat2))|].
  split; [vm_cast_no_check (eq_refl (Ok (48069835158087822550484484210577332719983619747502722069618962092332582181716, kat3)))|].
  reflexivity.
Qed.

(** RFC 4231, test case 6: a key of 131 bytes, which is hashed first. *)
Example C41_example_long_key :
  prng_init sha512_real (str "Test Using Larger Than Block-Size Key - Hash Key First") (repeat 0xaa 131)
  = [128; 178; 66; 99; 199; 193; 163; 235; 183; 20; 147; 193; 221; 123; 232; 180; 155; 70; 209; 244; 27; 74; 238; 193; 18; 27; 1; 55; 131; 248; 243; 82; 107; 86; 208; 55; 224; 95; 37; 152; 189; 15; 210; 33; 93; 106; 30; 82; 149; 230; 79; 115; 246; 63; 10; 236; 139; 145; 90; 152; 93; 120; 101; 152].
Proof.
  vm_cast_no_check (eq_refl ([128; 178; 66; 99; 199; 193; 163; 235; 183; 20; 147; 193; 221; 123; 232; 180; 155; 70; 209; 244; 27; 74; 238; 193; 18; 27; 1; 55; 131; 248; 243; 82; 107; 86; 208; 55; 224; 95; 37; 152; 189; 15; 210; 33; 93; 106; 30; 82; 149; 230; 79; 115; 246; 63; 10; 236; 139; 145; 90; 152; 93; 120; 101; 152] : bytes)).
Qed.

(** C42 *)
Theorem C42_infos_distinct : forall p q, short_time p -> short_time q -> info_of p = info_of q -> p = q.
Proof. exact infos_distinct. Qed.
Print Assumptions C42_infos_distinct.

Theorem C42_hash_inputs_distinct : forall cs cs' msg msg',
  DOM_SEP_HASH_TO_MSG ++ cs :: msg = DOM_SEP_HASH_TO_MSG ++ cs' :: msg' -> cs = cs' /\ msg = msg'.
Proof. exact hash_inputs_distinct. Qed.
Print Assumptions C42_hash_inputs_distinct.

Theorem C42_any_time_stamp_refuted : exists p q, p <> q /\ info_of p = info_of q.
Proof. exact long_times_collide. Qed.
Print Assumptions C42_any_time_stamp_refuted.

(** The code uses these infos. *)
Theorem C42_keygen_infos : forall (E : env) (L : env_laws E) (pp : pubparam E) seed pk sk pop,
  pp_ok pp -> key_gen seed pp = Ok (pk, sk, pop) ->
  let H := sha512 E in
  let g0 := rfc_hmac H (str "Pixel master key" ++ [pp_cs pp]) seed in
  let g1 := hkdf_T2 H g0 (info_of KeyInit) in
  let x := os2ip (hkdf_T1 H g0 (info_of KeyInit)) mod fr_modulus in
  let r := os2ip (hkdf_T1 H g1 (info_of SkInit)) mod fr_modulus in
  pk_pk pk = g2_mul x (pp_g2 pp) /\ sec_ssk sk = [honest_ssk pp x 1 [] r]
  /\ sec_prng sk = hkdf_T2 H g1 (info_of SkInit).
Proof. exact keygen_infos. Qed.
Print Assumptions C42_keygen_infos.

Theorem C42_signing_info : forall (E : env) (L : env_laws E) m m' (pp : pubparam E) pk sk msg,
  pp_ok pp -> reachable m pp pk sk ->
  let t := sec_time sk in
  exists x v r rest, pk = PubKey (pp_cs pp) (g2_mul x (pp_g2 pp)) /\ node_at (pp_depth pp) t v
    /\ sec_ssk sk = honest_ssk pp x t v r :: rest
    /\ sign_present m' t pp msg sk
       = (Ok (honest_sig pp x t v (msg_scalar pp msg)
                (r + os2ip (hkdf_T1 (sha512 E) (sec_prng sk) (info_of (Signing msg t))) mod fr_modulus)), sk).
Proof. exact signing_info. Qed.
Print Assumptions C42_signing_info.

Theorem C42_update_infos : forall (E : env) (sk : seckey E) seed i g,
  spec_reseed sk seed = rfc_hmac (sha512 E) (hkdf_T2 (sha512 E) (sec_prng sk) (info_of (Rerandomize (sec_time sk))))
      (hkdf_T1 (sha512 E) (sec_prng sk) (info_of (Rerandomize (sec_time sk))) ++ seed)
  /\ draws (sha512 E) (S i) g = hkdf_T2 (sha512 E) (draws (sha512 E) i g) (info_of Update)
  /\ added (sha512 E) g (S i) = os2ip (hkdf_T1 (sha512 E) (draws (sha512 E) i g) (info_of Update)) mod fr_modulus.
Proof. exact update_infos. Qed.
Print Assumptions C42_update_infos.

Example C42_example : short_time (Signing (str "hello") 7) /\ short_time (Rerandomize 4294967295)
  /\ info_of (Signing (str "a") 7) <> info_of (Signing [] 7) /\ reachable Debug tpp4 tpk4 tsk7.
Proof.
  split; [reflexivity|]. split; [reflexivity|]. split; [intros H; discriminate H|exact tsk7_reachable].
Qed.

(** C58: two places where the code is not what spec.md says. *)
Theorem C58_rerandomize_spec_md_refuted : exists H g seed info, (forall b, length (H b) = 64%nat)
  /\ rerandomize H g seed info <> Ok (spec_md_rerandomize H g seed (str "Pixel secret key rerandomize extract") info).
Proof. exact rerandomize_not_spec_md. Qed.
Print Assumptions C58_rerandomize_spec_md_refuted.

Theorem C58_keygen_info_spec_md_refuted : exists (E : env) (pp : pubparam E) seed pk sk pop,
  env_laws E /\ pp_ok pp /\ key_gen seed pp = Ok (pk, sk, pop)
  /\ pk_pk pk <> g2_mul (os2ip (hkdf_T1 (sha512 E) (rfc_hmac (sha512 E) (str "Pixel master key" ++ [pp_cs pp]) seed)
                           (str "Pixel master key")) mod fr_modulus) (pp_g2 pp).
Proof. exact keygen_not_spec_md. Qed.
Print Assumptions C58_keygen_info_spec_md_refuted.
