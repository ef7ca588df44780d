(** Vocabulary for Properties_Adv.v: the forward security game with everything drawn, the key under
    attack and the time of the break-in included, and the solver as a program that draws all its guesses. *)
From Verif Require Import Base Env Time SpecTime Hkdf Prng SpecPrng SubKey SecretKey Keys Sig
  SpecKey SpecUpdate SpecAgg SpecRed SpecMulti SpecRom SpecPop SpecFwd SpecClean SpecIface SpecCost.
From Coq Require Import QArith.
Local Open Scope N_scope.

(** * The game *)
(** The value whose scalar is the secret key, a scalar only the challenge depends on, the time of the
    break-in (0: none), the rest. *)
Definition gcoins := (bytes * N * N * fcoins)%type.
Definition gcoins_any (d n nb nk nu ls q p : nat) (w : gcoins) : Prop :=
  let '(bx, b, tb, z) := w in
  (length bx = 64%nat /\ are_bytes bx) /\ b < fr_modulus /\ tb <= last_time d /\ fcoins_any d n nb nk nu ls q p z.
Definition gwins {E} (m : mode) (g : G1 E) (d : nat) (cs : N) (adv : iforger_for E) (w : gcoins) : Prop :=
  let '(bx, _, tb, z) := w in iwins_or m g d cs tb bx adv z.
(** How many these are for one time of the break-in. *)
Definition game_count (d n nb nk nu ls q p : nat) : N := 256 ^ 64 * fr_modulus * fcount d n nb nk nu ls q p.

(** * The solver *)
(** What the challenge is made of, the guesses (time of the break-in, time stamp of the forgery, hash
    question), the rest. *)
Definition kcoins := (bytes * N * N * N * nat * scoins)%type.
Definition kcoins_any (d n nb nk nu ls q p : nat) (k : kcoins) : Prop :=
  let '(bx, b, tb, tx, i, (y, ys, rs, hs, rho, (seed, (B, ks, us), ds))) := k in
  ((length bx = 64%nat /\ are_bytes bx) /\ b < fr_modulus) /\ tb <= last_time d /\ 1 <= tx <= last_time d /\ (i < q)%nat
  /\ (y < fr_modulus /\ scalars (d + 1) ys /\ scalars n rs /\ blocks q hs /\ scalars p rho)
  /\ (length seed = ls /\ are_bytes seed) /\ blocks nb B /\ blocks nk ks /\ blocks nu us
  /\ length ds = n /\ Forall (fun k => k < 256 ^ 64 / fr_modulus + 1) ds.
Definition solver_count (d n nb nk nu ls q p : nat) : N :=
  256 ^ 64 * fr_modulus * (last_time d + 1) * last_time d * N.of_nat q
  * (fr_modulus ^ N.of_nat (d + 2 + n + p) * (256 ^ 64) ^ N.of_nat (q + nb + nk + nu) * 256 ^ N.of_nat ls
     * (256 ^ 64 / fr_modulus + 1) ^ N.of_nat n).
(** The program (SpecCost.v) is given the challenge, the guesses and the rest, and finds the solution. *)
Definition ksolves {E} (s : nat) (g : G1 E) (d : nat) (cs : N) (adv : iforger_for E) (k : kcoins) : Prop :=
  let '(bx, b, tb, tx, i, z) := k in
  program_solves (2 * s) (challenge_for g d (scalar_of bx) b) d cs tx i tb (two_calls d adv) z = Some (solution g d (scalar_of bx) b).
Definition kcosts {E} (s : nat) (g : G1 E) (d : nat) (cs : N) (adv : iforger_for E) (k : kcoins) : N :=
  let '(bx, b, tb, tx, i, z) := k in
  program_costs (2 * s) (challenge_for g d (scalar_of bx) b) d cs tx i tb (two_calls d adv) z.

(** * Probabilities *)
(** [a] out of [b]. *)
Definition share (a b : N) : Q := inject_Z (Z.of_N a) / inject_Z (Z.of_N b).
(** However the forger's winning coins are listed, they are at most this share of those for one time of
    the break-in: the sum over all times of the break-in of the probability to win with that one. *)
Definition game_at_most {E} (m : mode) (g : G1 E) (d : nat) (cs : N) (adv : iforger_for E) (n nb nk nu ls q p : nat) (eps : Q) : Prop :=
  forall ws, NoDup ws -> Forall (fun w => gcoins_any d n nb nk nu ls q p w /\ gwins m g d cs adv w) ws ->
  (share (N.of_nat (length ws)) (game_count d n nb nk nu ls q p) <= eps)%Q.
(** However the coins with which the program finds the solution at no more than [c] are listed, they are
    at most this share of all its coins: the probability that it does. *)
Definition solver_at_most {E} (s : nat) (c : N) (g : G1 E) (d : nat) (cs : N) (adv : iforger_for E) (n nb nk nu ls q p : nat) (eps : Q) : Prop :=
  forall zs, NoDup zs -> Forall (fun k => kcoins_any d n nb nk nu ls q p k /\ ksolves s g d cs adv k /\ kcosts s g d cs adv k <= c) zs ->
  (share (N.of_nat (length zs)) (solver_count d n nb nk nu ls q p) <= eps)%Q.
