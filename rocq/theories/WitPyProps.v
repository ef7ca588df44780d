(** Concrete runs of pixel-python where it differs from the Rust crate. *)
From Coq Require Import String.
From Verif Require Import Base Env Time Hkdf SpecTime Prng SubKey SecretKey Keys Sig IO Serdes Api Python
  SpecKey SpecPy Toy ToyRun.
Local Open Scope N_scope.

(** The key for time 7 sent back to time 3, and past the last time stamp. *)
Definition pdef : pysk toy := ([], []).
Definition pget {A} (d : A) (o : option A) : A := match o with Some a => a | None => d end.
Definition pyk3 : pysk toy := Eval vm_compute in pget pdef (py_update tpp4 (py_view tsk7) 3 []).
Definition pys3 : N * zn r2 * zn r1 := Eval vm_compute in
  pget (0, mk r2 0, mk r1 0) (py_sign_present tpp4 pyk3 3 (str "hello")).
Definition pyk16 : pysk toy := Eval vm_compute in pget pdef (py_update tpp4 (py_view tsk7) 16 []).
Lemma pyk3_ok : py_update tpp4 (py_view tsk7) 3 [] = Some pyk3.
Proof. vm_cast_no_check (eq_refl (Some pyk3)). Qed.
Lemma pyk16_ok : py_update tpp4 (py_view tsk7) 16 [] = Some pyk16.
Proof. vm_cast_no_check (eq_refl (Some pyk16)). Qed.
Lemma pys3_ok : py_sign_present tpp4 pyk3 3 (str "hello") = Some pys3.
Proof. vm_cast_no_check (eq_refl (Some pys3)). Qed.

Lemma py_accepts_past : exists (E : env) (pp : pubparam E) pk sk tar k t s1 s2,
  env_laws E /\ pp_ok pp /\ py_params pp /\ reachable Debug pp pk sk /\ tar < sec_time sk
  /\ update Debug pp tar [] sk = (Err E_TIME_STAMP, sk)
  /\ py_update pp (py_view sk) tar [] = Some k
  /\ py_sign_present pp k tar (str "hello") = Some (t, s1, s2)
  /\ verify Debug (Signature 0 t s1 s2) pk pp (str "hello") = Ok false.
Proof.
  exists toy, tpp4, tpk4, tsk7, 3, pyk3, (fst (fst pys3)), (snd (fst pys3)), (snd pys3).
  split; [exact toy_laws|]. split; [exact tpp4_ok|]. split; [constructor; cbn; lia|]. split; [exact tsk7_reachable|].
  split; [reflexivity|]. split; [vm_cast_no_check (eq_refl (@Err unit E_TIME_STAMP, tsk7))|].
  split; [exact pyk3_ok|]. split; [exact pys3_ok|]. vm_cast_no_check (eq_refl (Ok false)).
Qed.
Lemma py_accepts_after_last : exists (E : env) (pp : pubparam E) pk sk tar k,
  env_laws E /\ pp_ok pp /\ py_params pp /\ reachable Debug pp pk sk /\ last_time (pp_depth pp) < tar
  /\ update Debug pp tar [] sk = (Err E_TIME_STAMP, sk)
  /\ py_update pp (py_view sk) tar [] = Some k
  /\ py_sign_present pp k tar (str "hello") = None.
Proof.
  exists toy, tpp4, tpk4, tsk7, 16, pyk16.
  split; [exact toy_laws|]. split; [exact tpp4_ok|]. split; [constructor; cbn; lia|]. split; [exact tsk7_reachable|].
  split; [reflexivity|]. split; [vm_cast_no_check (eq_refl (@Err unit E_TIME_STAMP, tsk7))|].
  split; [exact pyk16_ok|]. vm_cast_no_check (@eq_refl (option (N * zn r2 * zn r1)) None).
Qed.
Lemma py_accepts_short_seed : exists (E : env) (pp : pubparam E) pk sk,
  env_laws E /\ pp_ok pp /\ py_params pp /\ key_gen [] pp = Err E_SEED_TOO_SHORT /\ py_key_gen pp [] = Some (pk, sk).
Proof.
  assert (H : exists k, py_key_gen tpp4 [] = Some k).
  { assert (Hb : match py_key_gen tpp4 [] with Some _ => true | None => false end = true) by (vm_cast_no_check (eq_refl true)).
    destruct (py_key_gen tpp4 []) as [k|]; [exists k; reflexivity|discriminate Hb]. }
  destruct H as [[pk sk] H]. exists toy, tpp4, pk, sk.
  split; [exact toy_laws|]. split; [exact tpp4_ok|]. split; [constructor; cbn; lia|]. split; [reflexivity|exact H].
Qed.
