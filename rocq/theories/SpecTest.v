(** What the test programs should do: pass, for every argument.  The exception is the panic
    "prng not updated" of an update, and then the hash function breaks (SpecColl.v) within
    one of the histories the test lets its keys go through. *)
From Verif Require Import Base Env SubKey SecretKey Keys Sig Api Programs SpecKey SpecUpdate SpecColl.
Local Open Scope N_scope.

Definition passes {E} (m : mode) (pp : pubparam E) (hs : list (bytes * list op)) (r : res unit) : Prop :=
  r = Ok tt \/ (r = Panic P_PRNG /\ breaks m pp hs).

(** The histories [for j in 2..n]: every time of 2 .. n-1 from a fresh key, the times
    2 .. n-1 one after the other, and every pair j < i from a fresh key. *)
Definition singles (kseed seed : bytes) (n : nat) : list (bytes * list op) :=
  map (fun j => (kseed, [OpUpdate j seed])) (range 2 n).
Definition in_turn (kseed seed : bytes) (n : nat) : bytes * list op :=
  (kseed, map (fun j => OpUpdate j seed) (range 2 n)).
Definition twos (kseed seed : bytes) (n : nat) : list (bytes * list op) :=
  flat_map (fun j => map (fun i => (kseed, [OpUpdate (N.of_nat j) seed; OpUpdate i seed])) (range (j + 1) n)) (seq 2 (n - 2)).

(** The second component of a signature with randomness [k] on a message at the node [v]:
    x*h + k*(h_0 + sum v_i*h_i + M*h_d). *)
Definition second_part {E} (pp : pubparam E) (x k : N) (v : list N) (msg : bytes) : G1 E :=
  g1_add (g1_mul x (pp_h pp)) (g1_mul k (sig_val pp v (msg_scalar pp msg))).
