(** Witness behind Properties_Any.v. *)
From Verif Require Import Base Env SubKey SecretKey IO Serdes SpecKey Toy ToyRun WitSigProps.
Local Open Scope N_scope.

Lemma unsorted_wrong_time : exists (E : env) (pp : pubparam E) blob sk t seed sk',
  env_laws E /\ pp_ok pp /\ from_slice (sk_deserialize true) blob = Ok sk
  /\ update Debug pp t seed sk = (Ok tt, sk') /\ sec_time sk' <> t.
Proof.
  exists toy, tpp4, tsk18_blob, tsk18, 4, [], tsk18'. split; [exact toy_laws|]. split; [exact tpp4_ok|].
  split; [vm_cast_no_check (eq_refl (Ok tsk18))|].
  split; [vm_cast_no_check (@eq_refl (res unit * seckey toy) (Ok tt, tsk18'))|]. discriminate.
Qed.
