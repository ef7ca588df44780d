(** Vocabulary for the properties about which public keys accept a signature. *)
From Verif Require Import Base Env SubKey Keys Sig.
Local Open Scope N_scope.

(** The same signature with another time stamp. *)
Definition relabel {E} (t : N) (s : signature E) : signature E := Signature (sig_cs s) t (sig_1 s) (sig_2 s).

(** A public key made from another one and a signature. *)
Definition shifted_key {E} (c : N) (s : signature E) (pk : pubkey E) : pubkey E :=
  PubKey (pk_cs pk) (g2_add (pk_pk pk) (g2_mul c (sig_1 s))).

(** What a signer can make out of the secret exponent instead of a signature. *)
Definition blank_sig {E} (pp : pubparam E) (x : N) (t : N) : signature E := Signature (pp_cs pp) t g2_zero (g1_mul x (pp_h pp)).
