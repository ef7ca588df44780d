(** Property C94: success, error or panic of a call, the time stamps and sizes in the key
    it leaves, and the fields of a signature other than its points depend on no group
    element.  Specification vocabulary: SpecCtl.v ([pp_shape], [key_shape], [sig_shape],
    [visible], [no_reload]), Api.v ([step], [run]). *)
From Coq Require Import String.
From Verif Require Import Base Env Time Prng SubKey SecretKey Keys Sig Api SpecCtl CtlProps Toy ToyRun.
Local Open Scope N_scope.

(** C94 *)
Theorem C94_call : forall (E E' : env) m (pp : pubparam E) (pp' : pubparam E') o (sk : seckey E) (sk' : seckey E'),
  sha512 E = sha512 E' -> pp_shape pp = pp_shape pp' -> key_shape sk = key_shape sk' -> no_reload o = true ->
  visible (option_map sig_shape) (fst (step m pp o sk)) = visible (option_map sig_shape) (fst (step m pp' o sk')) /\
  key_shape (snd (step m pp o sk)) = key_shape (snd (step m pp' o sk')).
Proof. exact step_visible_only. Qed.
Print Assumptions C94_call.

Theorem C94_calls : forall (E E' : env) m (pp : pubparam E) (pp' : pubparam E') ops (sk : seckey E) (sk' : seckey E'),
  sha512 E = sha512 E' -> pp_shape pp = pp_shape pp' -> key_shape sk = key_shape sk' -> forallb no_reload ops = true ->
  map (visible (option_map sig_shape)) (fst (run m pp ops sk)) = map (visible (option_map sig_shape)) (fst (run m pp' ops sk')) /\
  key_shape (snd (run m pp ops sk)) = key_shape (snd (run m pp' ops sk')).
Proof. exact run_visible_only. Qed.
Print Assumptions C94_calls.

Theorem C94_key_gen : forall (E E' : env) (pp : pubparam E) (pp' : pubparam E') seed,
  sha512 E = sha512 E' -> pp_shape pp = pp_shape pp' ->
  visible (fun r => (pk_cs (fst (fst r)), key_shape (snd (fst r)), pop_cs (snd r))) (key_gen seed pp) =
  visible (fun r => (pk_cs (fst (fst r)), key_shape (snd (fst r)), pop_cs (snd r))) (key_gen seed pp').
Proof. exact key_gen_visible_only. Qed.
Print Assumptions C94_key_gen.

Theorem C94_history : forall (E E' : env) m (pp : pubparam E) (pp' : pubparam E') seed ops pk sk pop pk' sk' pop',
  sha512 E = sha512 E' -> pp_shape pp = pp_shape pp' -> forallb no_reload ops = true ->
  key_gen seed pp = Ok (pk, sk, pop) -> key_gen seed pp' = Ok (pk', sk', pop') ->
  map (visible (option_map sig_shape)) (fst (run m pp ops sk)) = map (visible (option_map sig_shape)) (fst (run m pp' ops sk')) /\
  key_shape (snd (run m pp ops sk)) = key_shape (snd (run m pp' ops sk')).
Proof. exact history_visible_only. Qed.
Print Assumptions C94_history.

Theorem C94_aggregate : forall (E E' : env) (l : list (signature E)) (l' : list (signature E')),
  map sig_shape l = map sig_shape l' -> visible sig_shape (aggregate l) = visible sig_shape (aggregate l').
Proof. exact aggregate_visible_only. Qed.
Print Assumptions C94_aggregate.

(** A key with the shape of a generated one and the neutral element everywhere.  The
    first signature differs in its points; what is visible does not. *)
Definition ct_key : seckey toy :=
  SecKey (sec_cs tsk4) (sec_time tsk4)
    (map (fun s => SubKey (sk_t s) g2_zero g1_zero (map (fun _ => g1_zero) (sk_hvec s))) (sec_ssk tsk4)) (sec_prng tsk4).
Definition ct_ops : list op :=
  [OpSignPresent 1 (str "m"); OpUpdate 3 (str "a"); OpSignPresent 2 (str "m"); OpUpdate 16 (str "a"); OpSignThenUpdate 3 (str "m") (str "b")].
Definition ct_get (k : seckey toy) : signature toy :=
  match fst (sign_present Debug 1 tpp4 (str "m") k) with Ok s => s | _ => Signature 0 0 g2_zero g1_zero end.
Definition ct_s : signature toy := Eval vm_compute in ct_get tsk4.
Definition ct_s' : signature toy := Eval vm_compute in ct_get ct_key.
Example C94_example :
  key_shape ct_key = key_shape tsk4 /\ forallb no_reload ct_ops = true
  /\ map (visible (option_map sig_shape)) (fst (run Debug tpp4 ct_ops tsk4)) =
       [Ok (Some (0, 1)); Ok None; Err E_TIME_STAMP; Err E_TIME_STAMP; Ok (Some (0, 3))]
  /\ sec_time (snd (run Debug tpp4 ct_ops ct_key)) = 4
  /\ fst (sign_present Debug 1 tpp4 (str "m") tsk4) = Ok ct_s /\ fst (sign_present Debug 1 tpp4 (str "m") ct_key) = Ok ct_s' /\ g1_eqb (sig_2 ct_s) (sig_2 ct_s') = false.
Proof.
  split; [reflexivity|]. split; [reflexivity|].
  split; [vm_cast_no_check (@eq_refl (list (res (option (N * N)))) [Ok (Some (0, 1)); Ok None; Err E_TIME_STAMP; Err E_TIME_STAMP; Ok (Some (0, 3))])|].
  split; [vm_cast_no_check (eq_refl 4)|]. split; [vm_cast_no_check (eq_refl (Ok ct_s))|]. split; [vm_cast_no_check (eq_refl (Ok ct_s'))|].
  vm_cast_no_check (eq_refl false).
Qed.
