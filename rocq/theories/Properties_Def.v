(** Property C109: default and wiped objects (Default.v).  Specification vocabulary: SpecKey.v ([pp_ok]),
    SpecTime.v ([last_time]); [run] and [step] of Api.v are the calls of the interface. *)
From Coq Require Import String.
From Verif Require Import Base Env Time SpecTime Prng SubKey SecretKey Keys Sig IO Serdes Api
  SpecKey Default DefProps Toy ToyRun.
Local Open Scope N_scope.

(** C109 *)
Theorem C109_wiped : forall (E : env) (g : prng) (s : subkey E) (sk : seckey E),
  (length g = 64%nat -> prng_wipe g = prng_default)
  /\ ssk_wipe s = ssk_default
  /\ (length (sec_prng sk) = 64%nat -> sk_wipe sk = sk_default).
Proof. exact wiped_is_default. Qed.
Print Assumptions C109_wiped.
Theorem C109_no_subkeys_no_signatures : forall (E : env) (L : env_laws E) m (pp : pubparam E) ops sk,
  (1 <= pp_depth pp < 64)%nat -> sec_ssk sk = [] -> length (sec_prng sk) = 64%nat ->
  snd (run m pp ops sk) = sk /\ Forall (fun r => exists e, r = Err e) (fst (run m pp ops sk)).
Proof. exact empty_key_history. Qed.
Print Assumptions C109_no_subkeys_no_signatures.
Theorem C109_wiped_key_is_dead : forall (E : env) (L : env_laws E) m (pp : pubparam E) ops (sk : seckey E),
  (1 <= pp_depth pp < 64)%nat -> length (sec_prng sk) = 64%nat ->
  snd (run m pp ops (sk_wipe sk)) = sk_default
  /\ Forall (fun r => exists e, r = Err e) (fst (run m pp ops (sk_wipe sk))).
Proof. exact default_key_history. Qed.
Print Assumptions C109_wiped_key_is_dead.
Theorem C109_default_key : forall (E : env) m (pp : pubparam E) pk c,
  (1 <= pp_depth pp < 64)%nat ->
  sk_validate m sk_default pk pp = Ok false
  /\ to_vec (sk_serialize (@sk_default E) c) = Ok (repeat 0 66)
  /\ from_slice (@sk_deserialize E c) (repeat 0 66) = Err E_DESERIAL
  /\ sk_digest (@sk_default E) = Ok (sha512 E (repeat 0 132)).
Proof. exact default_key_calls. Qed.
Print Assumptions C109_default_key.
Theorem C109_default_subkey : forall (E : env) m (pp : pubparam E) pk t r c,
  (1 <= pp_depth pp < 64)%nat ->
  ssk_time_vec m (@ssk_default E) (pp_depth pp) = Err E_TIME_STAMP
  /\ delegate m t (pp_depth pp) (@ssk_default E) = (Err E_TIME_STAMP, ssk_default)
  /\ randomization m pp r ssk_default
     = (Err E_TIME_STAMP, SubKey 0 (g2_add g2_zero (g2_mul r (pp_g2 pp))) g1_zero [])
  /\ ssk_validate m ssk_default pk pp = Ok false
  /\ (exists b, to_vec (ssk_serialize (@ssk_default E) c) = Ok b /\ from_slice (@ssk_deserialize E c) b = Err E_TIME_STAMP).
Proof. exact default_subkey_calls. Qed.
Print Assumptions C109_default_subkey.
Theorem C109_default_signature : forall (E : env) (L : env_laws E) m (pp : pubparam E) pk k pks msg,
  pp_ok pp ->
  verify m sig_default pk pp msg = Ok false
  /\ verify_aggregated m sig_default (k :: pks) pp msg = Ok false
  /\ aggregate (sig_default :: repeat (@sig_default E) (length pks)) = Ok sig_default
  /\ (forall s l, In s l -> sig_time s <> 0 -> exists e, aggregate (@sig_default E :: l) = Err e)
  /\ (exists b, to_vec (sig_serialize (@sig_default E) true) = Ok b /\ from_slice (@sig_deserialize E true) b = Err E_TIME_STAMP).
Proof. exact default_signature_calls. Qed.
Print Assumptions C109_default_signature.
Theorem C109_default_bytes : forall (E : env) (L : env_laws E) c,
  to_vec (sig_serialize (@sig_default E) c) = Ok (repeat 0 5 ++ g2_enc c (@g2_zero E) ++ g1_enc c (@g1_zero E))
  /\ to_vec (pk_serialize (@pk_default E) c) = Ok (0 :: g2_enc c (@g2_zero E))
  /\ from_slice (@pk_deserialize E c) (0 :: g2_enc c (@g2_zero E)) = Ok pk_default
  /\ to_vec (pop_serialize (@pop_default E) c) = Ok (0 :: g1_enc c (@g1_zero E))
  /\ from_slice (@pop_deserialize E c) (0 :: g1_enc c (@g1_zero E)) = Ok pop_default.
Proof. exact default_bytes. Qed.
Print Assumptions C109_default_bytes.
Theorem C109_default_public_key_rejected_refuted : forall (E : env) (L : env_laws E) m (pp : pubparam E) t msg,
  pp_ok pp -> pp_cs pp = 0 -> 1 <= t <= last_time (pp_depth pp) ->
  (exists pop, pk_validate (@pk_default E) pop = true)
  /\ verify m (Signature 0 t g2_zero g1_zero) pk_default pp msg = Ok true.
Proof. exact default_public_key. Qed.
Print Assumptions C109_default_public_key_rejected_refuted.

(** The key of the examples is of this kind; after wiping it, the history of calls it came from fails throughout,
    with these errors. *)
Example C109_example :
  length (sec_prng tsk7) = 64%nat /\ sk_wipe tsk7 = sk_default /\ sec_ssk tsk7 <> []
  /\ run Debug tpp4 thist (sk_wipe tsk7)
     = ([Err E_SSK_EMPTY; Err E_SSK_EMPTY; Err E_TIME_STAMP; Err E_SSK_EMPTY; Err E_DESERIAL; Err E_TIME_STAMP], sk_default)
  /\ fst (sign_present Debug 0 tpp4 (str "m") (@sk_default toy)) = Err E_SSK_EMPTY
  /\ pp_cs tpp4 = 0 /\ 1 <= 5 <= last_time (pp_depth tpp4).
Proof.
  split; [reflexivity|]. split; [reflexivity|]. split; [discriminate|].
  split; [vm_cast_no_check (eq_refl (@pair (list (res (option (signature toy)))) (seckey toy) [Err E_SSK_EMPTY; Err E_SSK_EMPTY; Err E_TIME_STAMP; Err E_SSK_EMPTY; Err E_DESERIAL; Err E_TIME_STAMP] sk_default))|].
  split; [vm_cast_no_check (eq_refl (@Err (signature toy) E_SSK_EMPTY))|].
  split; [reflexivity|]. split; vm_compute; discriminate.
Qed.
