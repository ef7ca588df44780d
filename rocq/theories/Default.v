(** derive(Default), derive(Zeroize) and #[zeroize(drop)] on the types of the library.
    Taken from the crates: a point's default is the identity, an integer's is 0, a Vec's is empty;
    zeroize sets a point to the identity, an integer to 0, every byte of an array to 0, and for a
    Vec wipes its elements and then makes it empty (src/test/pixel_zeroize.rs tests this for the
    three types with secrets). *)
From Verif Require Import Base Env Time Hkdf Prng SubKey SecretKey Keys Sig.
Local Open Scope N_scope.

(** src/prng.rs 24-29: Default for PRNG. *)
Definition prng_default : prng := repeat 0 64.
(** src/subkeys.rs 19: derived Default. *)
Definition ssk_default {E : env} : subkey E := SubKey 0 g2_zero g1_zero [].
(** src/secret_key.rs 18: derived Default. *)
Definition sk_default {E : env} : seckey E := SecKey 0 0 [] prng_default.
(** src/public_key.rs 9, src/pop.rs 5, src/sig.rs 22: derived Default. *)
Definition pk_default {E : env} : pubkey E := PubKey 0 g2_zero.
Definition pop_default {E : env} : proof E := Pop 0 g1_zero.
Definition sig_default {E : env} : signature E := Signature 0 0 g2_zero g1_zero.

(** Zeroize of fields. *)
Definition int_wipe (x : N) : N := 0.
Definition array_wipe (l : bytes) : bytes := map int_wipe l.
Definition g1_wipe {E : env} (x : G1 E) : G1 E := g1_zero.
Definition g2_wipe {E : env} (x : G2 E) : G2 E := g2_zero.
Definition vec_wipe {A} (wipe : A -> A) (l : list A) : list A := firstn 0 (map wipe l).

(** src/prng.rs 20-22, src/subkeys.rs 19-32, src/secret_key.rs 18-29: derived Zeroize, which is
    also what drop does. *)
Definition prng_wipe (g : prng) : prng := array_wipe g.
Definition ssk_wipe {E} (s : subkey E) : subkey E :=
  SubKey (int_wipe (sk_t s)) (g2_wipe (sk_g2r s)) (g1_wipe (sk_hpoly s)) (vec_wipe g1_wipe (sk_hvec s)).
Definition sk_wipe {E} (sk : seckey E) : seckey E :=
  SecKey (int_wipe (sec_cs sk)) (int_wipe (sec_time sk)) (vec_wipe ssk_wipe (sec_ssk sk)) (prng_wipe (sec_prng sk)).
