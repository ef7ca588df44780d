(** Vocabulary for Properties_Ctl.v: what of a key, of the parameters and of a result is
    visible without looking at a group element. *)
From Verif Require Import Base Env Time Prng SubKey SecretKey Keys Sig Api.
Local Open Scope N_scope.

(** Ciphersuite, time stamp, prng state, and of every sub key the time stamp and the number
    of elements. *)
Definition ssk_shape {E} (s : subkey E) : N * nat := (sk_t s, length (sk_hvec s)).
Definition key_shape {E} (sk : seckey E) : N * N * prng * list (N * nat) :=
  (sec_cs sk, sec_time sk, sec_prng sk, map ssk_shape (sec_ssk sk)).
Definition pp_shape {E} (pp : pubparam E) : nat * N * nat := (pp_depth pp, pp_cs pp, length (pp_hlist pp)).
Definition sig_shape {E} (s : signature E) : N * N := (sig_cs s, sig_time s).

(** A result with its value replaced by what is visible of it: success, which error, which
    panic stay. *)
Definition visible {A B} (f : A -> B) (r : res A) : res B :=
  match r with Ok a => Ok (f a) | Err e => Err e | Panic p => Panic p end.

(** Not saving and reloading. *)
Definition no_reload (o : op) : bool := match o with OpReload _ => false | _ => true end.
