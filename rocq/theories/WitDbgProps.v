(** Witness for C100: the text of a signature does not show its time stamp. *)
From Coq Require Import String.
From Verif Require Import Base Env Time Prng SubKey SecretKey Keys Sig IO Serdes Api Debug SpecTime SpecKey Toy ToyRun WitSigProps.
Local Open Scope N_scope.

Lemma sig_text_ambiguous : exists (E : env) (pp : pubparam E) pk s s' msg,
  env_laws E /\ pp_ok pp /\ verify Debug s pk pp msg = Ok true /\ verify Debug s' pk pp msg = Ok false
  /\ forall p1 p2, sig_debug p1 p2 s = sig_debug p1 p2 s'.
Proof.
  exists toy, tpp4, tpk4, tsig7, (@Signature toy 0 8 (sig_1 tsig7) (sig_2 tsig7)), (str "hello").
  split; [exact toy_laws|]. split; [exact tpp4_ok|]. split; [vm_cast_no_check (@eq_refl (res bool) (Ok true))|].
  split; [vm_cast_no_check (@eq_refl (res bool) (Ok false))|]. intros p1 p2. reflexivity.
Qed.
