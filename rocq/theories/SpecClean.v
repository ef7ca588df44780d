(** Vocabulary for Properties_Clean.v: all coins of the game of SpecFwd.v, and how many of them
    are lost. *)
From Verif Require Import Base Env Time SpecTime Prng SpecPrng SubKey SecretKey Keys Sig
  SpecKey SpecUpdate SpecAgg SpecRed SpecMulti SpecRom SpecPop SpecFwd.
Local Open Scope N_scope.

(** Any coins: scalars and hash values, of the numbers given. *)
Definition fcoins_any (d n nb nk nu ls q p : nat) (z : fcoins) : Prop :=
  let '(y, ys, hs, zs, (seed, A, B, ks, us)) := z in
  y < fr_modulus /\ scalars (d + 1) ys /\ blocks q hs /\ scalars p zs
  /\ (length seed = ls /\ are_bytes seed) /\ blocks n A /\ blocks nb B /\ blocks nk ks /\ blocks nu us.
(** How many these are. *)
Definition fcount (d n nb nk nu ls q p : nat) : N :=
  fr_modulus ^ N.of_nat (d + 2 + p) * (256 ^ 64) ^ N.of_nat (q + n + nb + nk + nu) * 256 ^ N.of_nat ls.

(** The forger wins, or the values drawn do not make up a hash function. *)
Definition fwins_or {E} (m : mode) (g : G1 E) (d : nat) (cs tb : N) (bx : bytes) (adv : aforger_for E) (z : fcoins) : Prop :=
  let '(y, ys, hs, zs, (seed, _, _, _, _)) := z in
  exists o, sampled g d cs tb bx adv z = Some o
    /\ (clean z o -> awins (sampled_hash hs (o_tbl o) (o_calls o)) (points (o_ptbl o) (map (fun e => g1_mul e g) zs)) m (exp_params g d cs y ys) seed tb adv).

(** Lost because of scalars: two hash values have the same one, or h or a point is zero. *)
Definition scalars_lost (d n nb nk nu ls q p : nat) : N :=
  N.of_nat (q * (q - 1) / 2) * (256 ^ 64 / fr_modulus + 1) * (256 ^ 64) ^ N.of_nat (q - 1) * fcount d n nb nk nu ls 0 p
  + N.of_nat (p + 1) * (fr_modulus ^ N.of_nat (d + 1 + p) * (256 ^ 64) ^ N.of_nat (q + n + nb + nk + nu) * 256 ^ N.of_nat ls).
(** Lost because they are not clean: a state of the prng is met again, or asked for, or begins like the
    input of the message hash; one of the other values repeats; the seed is asked for. *)
Definition clean_lost (d n nb nk nu ls q p : nat) : N :=
  N.of_nat nk * ((N.of_nat (nk + q) + 2 * 256 ^ 42) * fcount d n nb (nk - 1) nu ls q p)
  + (N.of_nat nu * N.of_nat nu + N.of_nat q) * fcount d n nb nk (nu - 1) ls q p
  + N.of_nat q * fcount d n nb nk nu 0 q p.
