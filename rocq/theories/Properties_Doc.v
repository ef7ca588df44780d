(** Property C99: the Rust crate and the document spec.md.
    Specification vocabulary: Doc.v (the document's algorithms as programs: [doc_key_gen],
    [doc_update], [doc_sign], [doc_verify], [doc_aggregate], [doc_verify_aggregated],
    [doc_pk_validate], [doc_sk_validate]; the info strings are arguments, [code_texts] those
    of the code, [doc_texts] and [doc_texts2] those of the document), SpecTime.v ([tiling]),
    SpecColl.v ([breaks_at]: the hash function breaks within the history). *)
From Coq Require Import String.
From Verif Require Import Base Env Time Hkdf SpecTime Prng SubKey SecretKey Keys Sig IO Serdes Api
  SpecKey SpecSer SpecUpdate SpecColl Doc DocProps WitDocProps Toy ToyRun WitSigProps.
Local Open Scope N_scope.

(** C99: key generation. *)
Theorem C99_key_gen : forall (E : env) (L : env_laws E) (pp : pubparam E) seed,
  pp_ok pp -> key_gen seed pp = doc_key_gen code_texts seed pp.
Proof. exact doc_key_gen_agrees. Qed.
Print Assumptions C99_key_gen.

(** Update after any history.  (The code stops if its prng comes back to an old state.) *)
Theorem C99_update : forall (E : env) (L : env_laws E) m (pp : pubparam E) kseed pk sk0 pop l tar seed,
  pp_ok pp -> (pp_depth pp <= 32)%nat -> key_gen kseed pp = Ok (pk, sk0, pop) ->
  let sk := snd (run m pp l sk0) in
  match doc_update code_texts pp tar seed sk with
  | Ok sk' => update m pp tar seed sk = (Ok tt, sk') \/ (update m pp tar seed sk = (Panic P_PRNG, sk) /\ breaks_at m pp kseed l seed)
  | Err e => update m pp tar seed sk = (Err e, sk)
  | Panic _ => False
  end.
Proof. exact doc_update_agrees. Qed.
Print Assumptions C99_update.

(** Signing for the present or the past. *)
Theorem C99_sign : forall (E : env) (L : env_laws E) m m' (pp : pubparam E) pk sk tar msg seed,
  pp_ok pp -> reachable m pp pk sk -> tar <= sec_time sk ->
  sign m' tar pp msg seed sk = (doc_sign code_texts pp sk tar msg, sk)
  /\ sign_present m' tar pp msg sk = (doc_sign code_texts pp sk tar msg, sk).
Proof. exact doc_sign_agrees. Qed.
Print Assumptions C99_sign.

Theorem C99_verify : forall (E : env) (L : env_laws E) m (pp : pubparam E) s pk msg,
  pp_ok pp -> g2_insub (pk_pk pk) = true -> verify m s pk pp msg = Ok (doc_verify s pk pp msg).
Proof. exact doc_verify_agrees. Qed.
Print Assumptions C99_verify.

Theorem C99_aggregate : forall (E : env) (s : signature E) l,
  match doc_aggregate s l with
  | Ok a => aggregate (s :: l) = Ok a
  | Err e => aggregate (s :: l) = Err E_CIPHERSUITE \/ aggregate (s :: l) = Err E_TIME_STAMP
  | Panic _ => False
  end.
Proof. exact doc_aggregate_agrees. Qed.
Print Assumptions C99_aggregate.
Theorem C99_aggregate_same : forall (E : env) (s : signature E) l,
  Forall (fun e => sig_cs e = sig_cs s) l \/ Forall (fun e => sig_time e = sig_time s) l ->
  aggregate (s :: l) = doc_aggregate s l.
Proof. exact doc_aggregate_same. Qed.
Print Assumptions C99_aggregate_same.

Theorem C99_verify_aggregated : forall (E : env) (L : env_laws E) m (pp : pubparam E) s k ks msg,
  pp_ok pp -> Forall (fun e => g2_insub (pk_pk e) = true) (k :: ks) ->
  verify_aggregated m s (k :: ks) pp msg = Ok (doc_verify_aggregated s k ks pp msg).
Proof. exact doc_verify_aggregated_agrees. Qed.
Print Assumptions C99_verify_aggregated.

Theorem C99_pk_validate : forall (E : env) (pk : pubkey E) pop, pk_validate pk pop = doc_pk_validate pk pop.
Proof. exact doc_pk_validate_agrees. Qed.
Print Assumptions C99_pk_validate.

(** The document wants the whole list of sub keys, the code a front part of it. *)
Theorem C99_sk_validate : forall (E : env) (L : env_laws E) m (pp : pubparam E) sk pk,
  pp_ok pp -> g2_insub (pk_pk pk) = true ->
  Forall (fun s => g2_insub (sk_g2r s) = true /\ g1_insub (sk_hpoly s) = true) (sec_ssk sk) ->
  (doc_sk_validate pp pk sk = true <->
   sk_validate m sk pk pp = Ok true /\ tiling (pp_depth pp) (sec_time sk) (map sk_t (sec_ssk sk))).
Proof. exact doc_sk_validate_agrees. Qed.
Print Assumptions C99_sk_validate.

Definition d99sk7 : seckey toy := Eval vm_compute in
  match doc_update code_texts tpp4 7 (str "a") tsk4 with Ok s => s | _ => tsk4 end.
Example C99_example :
  pp_ok tpp4 /\ (pp_depth tpp4 <= 32)%nat
  /\ doc_key_gen code_texts tseed tpp4 = Ok (tpk4, tsk4, tpop4)
  /\ doc_update code_texts tpp4 7 (str "a") tsk4 = Ok d99sk7 /\ map sk_t (sec_ssk d99sk7) = [7; 8; 9]
  /\ update Debug tpp4 7 (str "a") tsk4 = (Ok tt, d99sk7)
  /\ doc_update code_texts tpp4 3 [] d99sk7 = Err E_TIME_STAMP.
Proof.
  split; [exact tpp4_ok|]. split; [cbn; lia|].
  split; [exact (eq_trans (eq_sym (C99_key_gen toy toy_laws tpp4 tseed tpp4_ok)) tkeygen)|].
  split; [vm_cast_no_check (@eq_refl (res (seckey toy)) (Ok d99sk7))|]. split; [reflexivity|].
  split; [vm_cast_no_check (@eq_refl (res unit * seckey toy) (Ok tt, d99sk7))|]. reflexivity.
Qed.
Example C99_example_sign :
  reachable Debug tpp4 tpk4 tsk7 /\ sec_time tsk7 = 7 /\ doc_sign code_texts tpp4 tsk7 7 (str "hello") = Ok tsig7
  /\ doc_sign code_texts tpp4 tsk7 6 (str "hello") = Err E_TIME_STAMP
  /\ g2_insub (pk_pk tpk4) = true /\ doc_verify tsig7 tpk4 tpp4 (str "hello") = true
  /\ doc_verify tsig7 tpk4 tpp4 (str "hellp") = false
  /\ doc_sk_validate tpp4 tpk4 tsk7 = true
  /\ doc_verify_aggregated tsig7 tpk4 [] tpp4 (str "hello") = true
  /\ doc_pk_validate tpk4 tpop4 = true.
Proof.
  split; [exact tsk7_reachable|]. split; [reflexivity|].
  split; [vm_cast_no_check (@eq_refl (res (signature toy)) (Ok tsig7))|].
  split; [reflexivity|]. split; [vm_cast_no_check (@eq_refl bool true)|].
  split; [vm_cast_no_check (@eq_refl bool true)|]. split; [vm_cast_no_check (@eq_refl bool false)|].
  split; [vm_cast_no_check (@eq_refl bool true)|]. split; [vm_cast_no_check (@eq_refl bool true)|].
  vm_cast_no_check (@eq_refl bool true).
Qed.
(** The examples of the document: the gamma list of [1,1,1], and the ancestor of 12 for
    sub keys 2 and 9. *)
Example C99_example_tree :
  doc_gamma [1; 1; 1] = [[1; 1; 1]; [1; 1; 2]; [1; 2]; [2]] /\ doc_gamma [1; 2] = [[1; 2]; [2]]
  /\ doc_find_ancestor (E := toy) [SubKey 2 g2_zero g1_zero []; SubKey 9 g2_zero g1_zero []] 12 = Some 9
  /\ map (doc_path 3) [1; 2; 3; 4; 5; 6; 7; 8]
     = [Ok []; Ok [1]; Ok [1; 1]; Ok [1; 2]; Ok [2]; Ok [2; 1]; Ok [2; 2]; Err E_TIME_STAMP]
  /\ doc_aggregate tsig7 [tsig7; @Signature toy 0 8 (sig_1 tsig7) (sig_2 tsig7)] = Err E_TIME_STAMP.
Proof. split; [reflexivity|]. split; [reflexivity|]. split; [reflexivity|]. split; reflexivity. Qed.

(** The strings printed in the document do not give the code's keys. *)
Theorem C99_update_text_refuted : exists (E : env) (pp : pubparam E) pk sk sk1 sk2,
  env_laws E /\ pp_ok pp /\ reachable Debug pp pk sk
  /\ doc_update doc_texts pp 2 [] sk = Ok sk1 /\ update Debug pp 2 [] sk = (Ok tt, sk2) /\ sk1 <> sk2.
Proof. exact doc_update_text_differs. Qed.
Print Assumptions C99_update_text_refuted.

Theorem C99_master_text_refuted : exists (E : env) (pp : pubparam E) seed k1 k2,
  env_laws E /\ pp_ok pp /\ doc_key_gen doc_texts2 seed pp = Ok k1 /\ key_gen seed pp = Ok k2 /\ fst (fst k1) <> fst (fst k2).
Proof. exact doc_master_text_differs. Qed.
Print Assumptions C99_master_text_refuted.

(** Its [sign_bytes] for a later time. *)
Theorem C99_sign_later_refuted : exists (E : env) (pp : pubparam E) pk sk s,
  env_laws E /\ pp_ok pp /\ reachable Debug pp pk sk
  /\ doc_sign doc_texts pp sk 2 (str "hello") = Ok s /\ doc_verify s pk pp (str "hello") = false
  /\ sign_bytes Debug sk 2 pp (str "hello") = Panic P_TIME.
Proof. exact doc_sign_later_rejected. Qed.
Print Assumptions C99_sign_later_refuted.

Theorem C99_validate_refuted : exists (E : env) (pp : pubparam E) pk sk,
  env_laws E /\ pp_ok pp /\ doc_sk_validate pp pk sk = false /\ sk_validate Debug sk pk pp = Ok true.
Proof. exact doc_validate_differs. Qed.
Print Assumptions C99_validate_refuted.
