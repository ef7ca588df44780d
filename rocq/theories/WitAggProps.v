(** Concrete cases for Properties_Agg.v. *)
From Coq Require Import String.
From Verif Require Import Base Env Time SpecTime Hkdf Prng SpecPrng SubKey SecretKey Keys Sig IO Serdes Api SpecKey
  SpecUpdate SpecSig SpecAgg Toy ToyRun WitProps WitSigProps.
Local Open Scope N_scope.

(** A key whose time stamp is the largest u64: no reachable key has it. *)
Definition tsk_max : seckey toy := @SecKey toy 0 18446744073709551615 (sec_ssk tsk4) (sec_prng tsk4).
Lemma build_modes_can_differ : exists (pp : pubparam toy) (sk : seckey toy) (o : op),
  pp_ok pp /\ fst (step Debug pp o sk) = Panic P_ARITH /\ fst (step Release pp o sk) = Err E_TIME_STAMP.
Proof.
  exists tpp4, tsk_max, (OpSignThenUpdate 18446744073709551615 (str "m") []). split; [exact tpp4_ok|].
  assert (H1 : fst (step Debug tpp4 (OpSignThenUpdate 18446744073709551615 (str "m") []) tsk_max) = Panic P_ARITH)
    by vm_cast_no_check (eq_refl (@Panic (option (signature toy)) P_ARITH)).
  assert (H2 : fst (step Release tpp4 (OpSignThenUpdate 18446744073709551615 (str "m") []) tsk_max) = Err E_TIME_STAMP)
    by vm_cast_no_check (eq_refl (@Err (option (signature toy)) E_TIME_STAMP)).
  exact (conj H1 H2).
Qed.

(** A difference of two elements of G1 to move from one signature to another. *)
Definition tD : G1 toy := Eval vm_compute in @g1_mul toy 5 (pp_h tpp4).
Definition tD' : G1 toy := Eval vm_compute in @g1_mul toy (fr_modulus - 5) (pp_h tpp4).
Lemma tD_ok : @g1_eqb toy tD g1_zero = false /\ @g1_add toy tD tD' = g1_zero.
Proof. split; [vm_cast_no_check (eq_refl false)|vm_cast_no_check (eq_refl (@g1_zero toy))]. Qed.

(** Two signatures with the same randomness, for two messages: the signature for the
    second message is made with the signer's secret. *)
Definition tk : N := 77.
Definition tsame1 : signature toy := Eval vm_compute in honest_sig tpp4 5 7 [1; 2; 1] (msg_scalar tpp4 (str "hello")) tk.
Definition tsame2 : signature toy := Eval vm_compute in honest_sig tpp4 5 7 [1; 2; 1] (msg_scalar tpp4 (str "world")) tk.
Definition tpk5 : pubkey toy := Eval vm_compute in @PubKey toy 0 (@g2_mul toy 5 (pp_g2 tpp4)).

(** A key with a wrong sub key. *)
Definition tsk_wrong : seckey toy :=
  @SecKey toy 0 7 (map (fun s : subkey toy => @SubKey toy (sk_t s) (sk_g2r s) (@g1_add toy (sk_hpoly s) tD) (sk_hvec s)) (sec_ssk tsk7)) (sec_prng tsk7).
