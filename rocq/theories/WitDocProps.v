(** Witnesses for C99: where the text of spec.md and the code differ. *)
From Coq Require Import String.
From Verif Require Import Base Env Time Prng SubKey SecretKey Keys Sig IO Serdes Api Doc SpecTime SpecKey SpecUpdate DocProps Toy ToyRun WitSigProps.
Local Open Scope N_scope.

Definition dsk2 : seckey toy := Eval vm_compute in
  match doc_update doc_texts tpp4 2 [] tsk4 with Ok s => s | _ => tsk4 end.
Definition csk2 : seckey toy := Eval vm_compute in snd (update Debug tpp4 2 [] tsk4).
Definition dkg2 : pubkey toy * seckey toy * proof toy := Eval vm_compute in
  match doc_key_gen doc_texts2 tseed tpp4 with Ok k => k | _ => (tpk4, tsk4, tpop4) end.
Definition dsig2 : signature toy := Eval vm_compute in
  match doc_sign code_texts tpp4 tsk4 2 (str "hello") with Ok s => s | _ => tsig7 end.

(** The text of the update string has a time stamp that the code leaves out. *)
Lemma doc_update_text_differs : exists (E : env) (pp : pubparam E) pk sk sk1 sk2,
  env_laws E /\ pp_ok pp /\ reachable Debug pp pk sk
  /\ doc_update doc_texts pp 2 [] sk = Ok sk1 /\ update Debug pp 2 [] sk = (Ok tt, sk2) /\ sk1 <> sk2.
Proof.
  exists toy, tpp4, tpk4, tsk4, dsk2, csk2. split; [exact toy_laws|]. split; [exact tpp4_ok|]. split; [exact tsk4_reachable|].
  split; [vm_cast_no_check (@eq_refl (res (seckey toy)) (Ok dsk2))|].
  split; [vm_cast_no_check (@eq_refl (res unit * seckey toy) (Ok tt, csk2))|].
  intros H. apply (f_equal (fun s => bytes_eqb (sec_prng s) (sec_prng csk2))) in H. vm_compute in H. discriminate H.
Qed.
(** So has the first of its two strings for the master key. *)
Lemma doc_master_text_differs : exists (E : env) (pp : pubparam E) seed k1 k2,
  env_laws E /\ pp_ok pp /\ doc_key_gen doc_texts2 seed pp = Ok k1 /\ key_gen seed pp = Ok k2 /\ fst (fst k1) <> fst (fst k2).
Proof.
  exists toy, tpp4, tseed, dkg2, (tpk4, tsk4, tpop4). split; [exact toy_laws|]. split; [exact tpp4_ok|].
  split; [vm_cast_no_check (@eq_refl (res (pubkey toy * seckey toy * proof toy)) (Ok dkg2))|].
  split; [exact tkeygen|]. intros H. apply (f_equal (fun k => pk_eqb k tpk4)) in H. vm_compute in H. discriminate H.
Qed.
(** The text signs for a later time with the sub key of the present; its own verification
    rejects the result.  The code stops. *)
Lemma doc_sign_later_rejected : exists (E : env) (pp : pubparam E) pk sk s,
  env_laws E /\ pp_ok pp /\ reachable Debug pp pk sk
  /\ doc_sign doc_texts pp sk 2 (str "hello") = Ok s /\ doc_verify s pk pp (str "hello") = false
  /\ sign_bytes Debug sk 2 pp (str "hello") = Panic P_TIME.
Proof.
  exists toy, tpp4, tpk4, tsk4, dsig2. split; [exact toy_laws|]. split; [exact tpp4_ok|]. split; [exact tsk4_reachable|].
  split; [vm_cast_no_check (@eq_refl (res (signature toy)) (Ok dsig2))|].
  split; [vm_cast_no_check (@eq_refl bool false)|]. vm_cast_no_check (@eq_refl (res (signature toy)) (Panic P_TIME)).
Qed.
(** The text rejects a key without sub keys; the code accepts it. *)
Lemma doc_validate_differs : exists (E : env) (pp : pubparam E) pk sk,
  env_laws E /\ pp_ok pp /\ doc_sk_validate pp pk sk = false /\ sk_validate Debug sk pk pp = Ok true.
Proof.
  exists toy, tpp4, tpk4, tsk_none. split; [exact toy_laws|]. split; [exact tpp4_ok|].
  split; [vm_cast_no_check (@eq_refl bool false)|]. vm_cast_no_check (@eq_refl (res bool) (Ok true)).
Qed.
