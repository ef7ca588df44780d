(** sign_then_update of any key, malformed ones included. *)
From Verif Require Import Base Env SubKey SecretKey Keys Sig.
From Coq Require Import ZifyBool ZifyNat ZifyN.
Local Open Scope N_scope.

Lemma sign_then_update_any_key : forall (E : env) m (pp : pubparam E) sk t msg seed, t + 1 < 2 ^ 64 ->
  sign_then_update m t pp msg seed sk = (do! s <- sign_present m t pp msg; do! _ <- update m pp (t + 1) seed; sret s) sk.
Proof.
  intros E m pp sk t msg seed Ht. unfold sign_then_update, sign_present, sbind, sget, slift. destruct (negb (sec_time sk =? t)); [reflexivity|].
  destruct (sign_bytes m sk t pp msg); [|reflexivity|reflexivity]. unfold add64.
  replace (t + 1 <? two64) with true by (symmetry; apply N.ltb_lt; exact Ht). reflexivity.
Qed.
