(** Properties C74-C79: what the functions leave in memory (Hygiene.v) and what it can be
    used for.  Specification vocabulary: SpecHyg.v ([gives], [no_sec_left], [keygen_cells],
    [update_cells], [sign_cells], [hv_cell], [buf_cell], [sign_with], [recover],
    [combine_sigs]), SpecKey.v ([pp_ok], [sig_val], [node_val]), SpecTime.v ([node_at]),
    SpecUpdate.v ([msg_scalar]), SpecPrng.v ([spec_scalar]), SpecSer.v ([wf_sk], [sk_blob]). *)
From Coq Require Import String.
From Verif Require Import Base Env Time SpecTime Prng SpecPrng SubKey SecretKey Keys Sig IO Serdes Api
  SpecKey SpecUpdate SpecSer SerProps Hygiene SpecHyg HygProps Toy ToyRun.
Local Open Scope N_scope.

Definition names {E} (d : list (cell E)) : list (string * string) := map (fun c => (c_fun c, c_var c)) d.
Definition left_of {A} (h : hm toy A) : list (cell toy) := snd (snd (h ([], []))).

(** C74 *)
Theorem C74_same_results : forall (E : env) (L : env_laws E) m (pp : pubparam E) seed sk t msg c w s,
  (fst (key_gen_h seed pp s) = key_gen seed pp /\ fst (snd (key_gen_h seed pp s)) = fst s)
  /\ (fst (update_h m pp t seed sk s) = run_mut (update m pp t seed) sk /\ fst (snd (update_h m pp t seed sk s)) = fst s)
  /\ (fst (sign_present_h m t pp msg sk s) = fst (sign_present m t pp msg sk)
      /\ fst (snd (sign_present_h m t pp msg sk s)) = fst s)
  /\ (fst (sk_serialize_h sk c w s) = run_mut (sk_serialize sk c) w /\ fst (snd (sk_serialize_h sk c w s)) = fst s)
  /\ (fst (digest_h sk s) = sk_digest sk /\ fst (snd (digest_h sk s)) = fst s).
Proof. exact hygiene_agrees. Qed.
Print Assumptions C74_same_results.

Example C74_example :
  names (left_of (key_gen_h tseed tpp4))
  = [("PRNG::init", "rng_seed"); ("os2ip_mod_p", "s"); ("proof_of_possession", "msk"); ("master_key_gen", "x_sec");
     ("os2ip_mod_p", "s"); ("SubSecretKey::init", "hlist"); ("SubSecretKey::init", "hpoly"); ("SubSecretKey::init", "g2r");
     ("SubSecretKey::init", "alpha"); ("SubSecretKey::init", "r"); ("SecretKey::init", "alpha"); ("keygen", "msk_sec")]%string
  /\ is_ok (fst (update_h Debug tpp4 1 (str "a") tsk4 ([], []))) = false.
Proof. split; vm_compute; reflexivity. Qed.

(** C75 *)
Theorem C75_no_sec_left : forall (E : env) (L : env_laws E) m (pp : pubparam E) sk t seed msg,
  (exists d, gives (update_h m pp t seed sk) (run_mut (update m pp t seed) sk) d
             /\ ((forall p, run_mut (update m pp t seed) sk <> Panic p) -> no_sec_left d))
  /\ (exists d, gives (sign_present_h m t pp msg sk) (fst (sign_present m t pp msg sk)) d
             /\ ((forall p, fst (sign_present m t pp msg sk) <> Panic p) -> no_sec_left d)).
Proof. exact update_sign_no_sec. Qed.
Print Assumptions C75_no_sec_left.

Theorem C75_update_leaves : forall (E : env) (L : env_laws E) m m' (pp : pubparam E) pk sk t seed sk',
  pp_ok pp -> reachable m pp pk sk -> update m' pp t seed sk = (Ok tt, sk') ->
  gives (update_h m' pp t seed sk) (Ok sk') (update_cells sk sk' seed).
Proof. exact update_leaves. Qed.
Print Assumptions C75_update_leaves.

Theorem C75_sign_leaves : forall (E : env) (L : env_laws E) m (pp : pubparam E) sk t msg s,
  sign_present m t pp msg sk = (Ok s, sk) -> gives (sign_present_h m t pp msg sk) (Ok s) (sign_cells pp sk t msg).
Proof. exact sign_leaves. Qed.
Print Assumptions C75_sign_leaves.

Theorem C75_randomization_refuted : forall (E : env) m (pp : pubparam E) k s e,
  tv_init m (sk_t s) (pp_depth pp) = Err e ->
  gives (randomization_h m pp k s) (Err e)
    [Cell "randomization" "tmp_sec" (VG2 (g2_mul k (pp_g2 pp))); Cell "randomization" "r" (VInt k)].
Proof. exact randomization_sec_left. Qed.
Print Assumptions C75_randomization_refuted.

Definition tsk10 : seckey toy := Eval vm_compute in upd_of 10 (str "b") tsk7.
Example C75_example :
  new_times tsk7 tsk10 = [10; 13]
  /\ names (left_of (update_h Debug tpp4 10 (str "b") tsk7)) = [("os2ip_mod_p", "s"); ("randomization", "r")]%string
  /\ names (left_of (sign_present_h Debug 7 tpp4 (str "hello") tsk7))
     = [("os2ip_mod_p", "s"); ("os2ip_mod_p", "s"); ("sign_fr", "r")]%string
  /\ tv_init Debug 16 4 = Err E_TIME_DEPTH /\ sec_named "tmp_sec" = true /\ sec_named "r" = false.
Proof.
  split; [vm_compute; reflexivity|]. split; [vm_compute; reflexivity|]. split; [vm_compute; reflexivity|].
  split; [reflexivity|]. split; reflexivity.
Qed.

(** C76 *)
Theorem C76_keygen_leaves : forall (E : env) (L : env_laws E) m (pp : pubparam E) seed pk sk pop,
  pp_ok pp -> key_gen seed pp = Ok (pk, sk, pop) ->
  exists g x r, gives (key_gen_h seed pp) (Ok (pk, sk, pop)) (keygen_cells pp g x r)
    /\ pk = PubKey (pp_cs pp) (g2_mul x (pp_g2 pp))
    /\ of_limbs (limbs x) = x
    /\ (forall t v msg s, node_at (pp_depth pp) t v ->
         verify m (sign_with pp (g1_mul x (pp_h pp)) t v (msg_scalar pp msg) s) pk pp msg = Ok true)
    /\ ~ no_sec_left (keygen_cells pp g x r)
    /\ spec_scalar (sha512 E) g KEY_INIT_INFO = x.
Proof. exact keygen_leaves. Qed.
Print Assumptions C76_keygen_leaves.

Example C76_example :
  pp_ok tpp4 /\ key_gen tseed tpp4 = Ok (tpk4, tsk4, tpop4)
  /\ sec_named "x_sec" = true /\ sec_named "msk_sec" = true
  /\ (fix f (d : list (cell toy)) := match d with
        | Cell "keygen" "msk_sec" (VG1 z) :: _ =>
          [verify Debug (sign_with tpp4 z 1 [] (msg_scalar tpp4 (str "m")) 5) tpk4 tpp4 (str "m");
           verify Debug (sign_with tpp4 z 13 [2; 2] (msg_scalar tpp4 (str "m")) 6) tpk4 tpp4 (str "m")]
        | _ :: d' => f d' | [] => [] end) (left_of (key_gen_h tseed tpp4)) = [Ok true; Ok true].
Proof.
  split; [exact tpp4_ok|]. split; [exact tkeygen|]. split; [reflexivity|]. split; [reflexivity|].
  vm_cast_no_check (eq_refl [Ok true; Ok true]).
Qed.

(** C77 *)
Theorem C77_past_key_recovered : forall (E : env) (L : env_laws E) m m' (pp : pubparam E) pk sk t seed sk',
  pp_ok pp -> reachable m pp pk sk -> update m' pp t seed sk = (Ok tt, sk') ->
  (2 <= length (new_times sk sk'))%nat ->
  exists d s0 s1 rest rho p u,
    gives (update_h m' pp t seed sk) (Ok sk') d
    /\ In (Cell "randomization" "r" (VInt rho)) d
    /\ sec_ssk sk' = s0 :: s1 :: rest
    /\ node_at (pp_depth pp) p u /\ sec_time sk <= p < t
    /\ forall m'' g msg, exists s,
         fst (sign_present m'' p pp msg (SecKey (pp_cs pp) p [recover pp p u s0 s1 rho] g)) = Ok s
         /\ verify m'' s pk pp msg = Ok true.
Proof. exact leftover_recovers_past. Qed.
Print Assumptions C77_past_key_recovered.

Definition hyg_rho : N := Eval vm_compute in match left_of (update_h Debug tpp4 10 (str "b") tsk7) with [_; Cell _ _ (VInt r)] => r | _ => 0 end.
Definition hyg_old : list (subkey toy) :=
  Eval vm_compute in match sec_ssk tsk10 with s0 :: s1 :: _ => [recover tpp4 9 [2] s0 s1 hyg_rho] | _ => [] end.
Example C77_example :
  update Debug tpp4 10 (str "b") tsk7 = (Ok tt, tsk10) /\ map sk_t (sec_ssk tsk10) = [10; 13] /\ node_at 4 9 [2]
  /\ match fst (sign_present Debug 9 tpp4 (str "m") (SecKey 0 9 hyg_old [])) with
     | Ok s => verify Debug s tpk4 tpp4 (str "m") | _ => Ok false end = Ok true.
Proof.
  split; [vm_cast_no_check (eq_refl (@Ok unit tt, tsk10))|]. split; [reflexivity|]. split; [split; [lia|reflexivity]|].
  vm_cast_no_check (eq_refl (@Ok bool true)).
Qed.

(** C78 *)
Theorem C78_serialize_leaves : forall (E : env) (sk : seckey E) c w,
  wf_sk sk ->
  gives (sk_serialize_h sk c w) (run_mut (sk_serialize sk c) w)
    (map hv_cell (sec_ssk sk) ++ match run_mut (sk_serialize sk c) w with Ok _ => [] | _ => [buf_cell (sk_blob c sk)] end).
Proof. exact serialize_leaves. Qed.
Print Assumptions C78_serialize_leaves.

Theorem C78_digest_leaves : forall (E : env) (L : env_laws E) (sk : seckey E),
  wf_sk sk ->
  exists dig, gives (digest_h sk) (Ok dig)
    (map hv_cell (sec_ssk sk) ++ [Cell "digest" "hashinput" (VBytes (repeat 0 (sk_size sk) ++ sk_blob true sk))])
  /\ from_slice (sk_deserialize true) (skipn (sk_size sk) (repeat 0 (sk_size sk) ++ sk_blob true sk)) = Ok sk.
Proof. exact digest_leaves. Qed.
Print Assumptions C78_digest_leaves.

Example C78_example :
  wf_sk tsk7
  /\ names (left_of (sk_serialize_h tsk7 true (vec_writer [])))
     = repeat ("SubSecretKey::serialize", "hvector")%string 3
  /\ names (left_of (sk_serialize_h tsk7 true (Writer [] [WAccept 7; WFail])))
     = (repeat ("SubSecretKey::serialize", "hvector")%string 3 ++ [("SecretKey::serialize", "buf")%string])%list
  /\ names (left_of (digest_h tsk7)) = (repeat ("SubSecretKey::serialize", "hvector")%string 3 ++ [("digest", "hashinput")%string])%list.
Proof.
  split; [exact (reachable_sk_representable toy toy_laws Debug tpp4 tpk4 tsk7 tpp4_ok ltac:(vm_compute; lia) tsk7_reachable)|].
  repeat split; vm_compute; reflexivity.
Qed.

(** C79 *)
Theorem C79_any_message_signed : forall (E : env) (L : env_laws E) m m' (pp : pubparam E) pk sk t msg1 msg2 s1 s2,
  pp_ok pp -> reachable m pp pk sk ->
  sign_present m' t pp msg1 sk = (Ok s1, sk) -> sign_present m' t pp msg2 sk = (Ok s2, sk) ->
  msg_scalar pp msg1 <> msg_scalar pp msg2 ->
  exists d1 d2 k1 k2 v c,
    gives (sign_present_h m' t pp msg1 sk) (Ok s1) d1 /\ gives (sign_present_h m' t pp msg2 sk) (Ok s2) d2
    /\ In (Cell "sign_fr" "r" (VInt k1)) d1 /\ In (Cell "sign_fr" "r" (VInt k2)) d2
    /\ node_at (pp_depth pp) t v
    /\ forall m'' msg,
         verify m'' (combine_sigs pp t v s1 s2 k1 k2 (msg_scalar pp msg1) (msg_scalar pp msg2) c (msg_scalar pp msg)) pk pp msg = Ok true.
Proof. exact leftover_forges. Qed.
Print Assumptions C79_any_message_signed.

Definition hyg_k (msg : bytes) : N := match left_of (sign_present_h Debug 7 tpp4 msg tsk7) with [_; _; Cell _ _ (VInt k)] => k | _ => 0 end.
Definition hyg_s (msg : bytes) : signature toy :=
  match fst (sign_present Debug 7 tpp4 msg tsk7) with Ok s => s | _ => @Signature toy 0 0 (mk r2 0) (mk r1 0) end.
(** (M_a - M_b)^(q-2), by square and multiply. *)
Fixpoint powmod (a : N) (e : positive) : N :=
  match e with
  | xH => a
  | xO e' => let y := powmod a e' in (y * y) mod fr_modulus
  | xI e' => let y := powmod a e' in (y * y * a) mod fr_modulus
  end.
Definition hyg_c : N := Eval vm_compute in
  match fr_modulus - 2 with Npos e => powmod (msg_scalar tpp4 (str "a") + (fr_modulus - msg_scalar tpp4 (str "b"))) e | _ => 0 end.
Example C79_example :
  (msg_scalar tpp4 (str "a") =? msg_scalar tpp4 (str "b")) = false
  /\ map is_ok [fst (sign_present Debug 7 tpp4 (str "a") tsk7); fst (sign_present Debug 7 tpp4 (str "b") tsk7)] = [true; true]
  /\ node_at 4 7 [1; 2; 1]
  /\ verify Debug (combine_sigs tpp4 7 [1; 2; 1] (hyg_s (str "a")) (hyg_s (str "b")) (hyg_k (str "a")) (hyg_k (str "b"))
       (msg_scalar tpp4 (str "a")) (msg_scalar tpp4 (str "b")) hyg_c (msg_scalar tpp4 (str "c"))) tpk4 tpp4 (str "c") = Ok true.
Proof.
  split; [vm_compute; reflexivity|]. split; [vm_compute; reflexivity|]. split; [split; [lia|reflexivity]|].
  vm_cast_no_check (eq_refl (@Ok bool true)).
Qed.
