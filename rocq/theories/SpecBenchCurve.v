(** Specification vocabulary of C129: the benchmarks of the curve. *)
From Verif Require Import Base Env BenchCurve.
Local Open Scope N_scope.

(** How many of the first [n] runs use the sample [i] of [s]: one in every [s] runs, beginning with run [i]. *)
Definition uses (s n i : nat) : nat := length (filter (fun j => Nat.eqb (j mod s) i) (seq 0 n)).
(** The sample used in run [j]. *)
Definition sample {A} (l : list A) (j : nat) : option A := nth_error l (j mod length l).
(** The points drawn are in the subgroups. *)
Definition good_draw {E} (d : pair_draw E) : Prop :=
  g2_insub (d11 d) = true /\ g2_insub (d12 d) = true /\ g2_insub (d13 d) = true
  /\ g1_insub (d21 d) = true /\ g1_insub (d22 d) = true /\ g1_insub (d23 d) = true.
(** The results [l] of [n] runs, each the value of [f] at its sample. *)
Definition read_off {A B} (f : A -> B) (samples : list A) (n : nat) (l : list B) : Prop :=
  length l = n /\ forall j, (j < n)%nat -> nth_error l j = option_map f (sample samples j).
